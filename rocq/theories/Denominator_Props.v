(** C101: ratio metrics with the same denominator everywhere, and numerators that average zero. *)
From Coq Require Import ZArith Reals Lra Lia List String Bool Permutation Sorting.Sorted.
From Flocq Require Import Core BinarySingleNaN.
Require Verif.Analysis_Model Verif.Effect_Props Verif.Adjust_Props Verif.Analyzer_Props.
Require Import Verif.Base Verif.Num Verif.NumOrd Verif.F64 Verif.ListLib
  Verif.Trimmed_Model Verif.Trimmed_Spec Verif.Moments Verif.Trimmed_Proofs Verif.Trimmed_Real Verif.Trimmed_Props
  Verif.Cuped_Props Verif.Stats_Model Verif.Stats_Num Verif.Stats_Props Verif.Tests_Proofs Verif.Tests_Props Verif.Tests_Props2 Verif.Ratio_Props.
Import ListNotations.
Open Scope string_scope.
Open Scope list_scope.
Open Scope R_scope.

(** the same denominator for every item *)
Definition same (c : R) (xs : list R) : list R := repeat c (List.length xs).
(** every value divided by the denominator *)
Definition divided (c : R) (xs : list R) : list R := map (fun x => x / c) xs.

(** *** Proofs *)
Lemma divided_rescaled c xs : divided c xs = rescaled (/ c) xs.
Proof. unfold divided, rescaled. apply map_ext. intros; unfold Rdiv; ring. Qed.

Lemma rtake_same c xs idx : (forall i, In i idx -> (i < List.length xs)%nat) -> rtake idx (same c xs) = repeat c (List.length idx).
Proof.
  intros H. unfold rtake. apply map_const. intros i Hi. apply H in Hi. unfold same.
  assert (IN : In (nth i (repeat c (List.length xs)) 0) (repeat c (List.length xs))) by (apply nth_In; now rewrite repeat_length). now apply repeat_spec in IN.
Qed.
Lemma codev_const_r f c (idx : list nat) : idx <> [] -> codev (map f idx) (repeat c (List.length idx)) = 0.
Proof. intros N. rewrite <- (map_const (fun _ => c) c idx) by auto. exact (Cv_const_r idx N c f). Qed.
Lemma codev_const_l f c (idx : list nat) : idx <> [] -> codev (repeat c (List.length idx)) (map f idx) = 0.
Proof. intros N. rewrite <- (map_const (fun _ => c) c idx) by auto. exact (Cv_const_l idx N c f). Qed.
Lemma avg_const c (idx : list nat) : idx <> [] -> avg (repeat c (List.length idx)) = c.
Proof. intros N. rewrite <- (map_const (fun _ => c) c idx) by auto. exact (Av_const idx N c). Qed.

(** mean and covariance of a sample with its denominators *)
Lemma two_rows argsort xs ds s q : sorts argsort -> sample xs -> List.length ds = List.length xs -> sorted_as xs s ->
  forall t, mk_trimmed argsort [data xs; data ds] q = Ok t ->
  exists u w, let D := Fin (IZR (Z.of_nat (t_len argsort t) - 1)) in
    Z.of_nat (t_k t) = trim_each (List.length xs) q /\ (2 * t_k t < List.length xs)%nat /\ t_len argsort t = (List.length xs - 2 * t_k t)%nat /\
    vec (t_mean argsort t) 0 = Fin (tmean (t_k t) s) /\ mat (t_cov argsort t 1) 0 0 = ndiv (Fin (tdev (t_k t) xs s)) D /\
    vec (t_mean argsort t) 1 = Fin u /\ mat (t_cov argsort t 1) 1 1 = ndiv (Fin w) D /\
    (exists z, mat (t_cov argsort t 1) 0 1 = ndiv (Fin z) D /\
     (forall c, ds = same c xs -> u = c /\ w = 0 /\ z = 0)).
Proof.
  intros HS Sx L Px t Ht.
  assert (A : array (List.length xs) (fins [xs; ds])) by (apply sample_array; auto; [intros r0 [<-|[<-|[]]]; auto|discriminate]).
  assert (FT : finite_trimmed t [xs; ds] (List.length xs) (t_k t)).
  { eapply (rows_finite argsort HS q); eauto; [|discriminate]. intros r0 [<-|[<-|[]]]; auto. }
  destruct (c43_trims_floor_of_quantile_times_n argsort _ q _ t HS A Ht) as (E & E2 & _).
  assert (FR := first_row argsort HS t [xs; ds] _ s FT Px). cbn [hd] in FR. destruct FR as [F1 F2].
  assert (LN := len_real argsort HS t [xs; ds] _ (t_k t) FT).
  exists (avg (rtake (t_kept argsort t) ds)), (cc argsort t [xs; ds] ds ds). intros D.
  split; [exact E|]. split; [exact E2|]. split; [exact LN|].
  rewrite (mean_entry argsort HS t [xs; ds] _ 0 xs FT eq_refl), F1. split; auto.
  rewrite (cov_entry argsort HS t [xs; ds] _ 0 0 xs xs FT eq_refl eq_refl), F2. split; auto.
  rewrite (mean_entry argsort HS t [xs; ds] _ 1 ds FT eq_refl). split; auto.
  rewrite (cov_entry argsort HS t [xs; ds] _ 1 1 ds ds FT eq_refl eq_refl). split; auto.
  exists (cc argsort t [xs; ds] xs ds). split; [apply (cov_entry argsort HS t [xs; ds] _ 0 1 xs ds FT eq_refl eq_refl)|].
  intros c ->.
  assert (KN : t_kept argsort t <> []) by (apply (kept_nonempty argsort HS t [xs; same c xs] _ _ FT)).
  assert (KB : forall i, In i (t_kept argsort t) -> (i < List.length xs)%nat) by (intros; eapply (kept_bound argsort HS t [xs; same c xs]); eauto).
  assert (WN : widx argsort t [xs; same c xs] (t_k t) <> []) by (apply (widx_nonempty argsort HS t [xs; same c xs] _ _ FT)).
  assert (WB : forall i, In i (widx argsort t [xs; same c xs] (t_k t)) -> (i < List.length xs)%nat).
  { intros i Hi. apply KB. now apply (widx_kept argsort HS t [xs; same c xs] _ _ FT) in Hi. }
  split; [rewrite rtake_same, avg_const; auto|]. unfold cc. split; [rewrite rtake_same, codev_repeat; auto|].
  rewrite (rtake_same c xs _ WB). now apply codev_const_r.
Qed.

Lemma ratio_constant m c v : m <> 0 -> c <> 0 ->
  ratio_mean_and_variance (Fin m) (Fin c) (Fin v) (Fin 0) (Fin 0) = (Fin (m / c), Fin (v / (c * c))).
Proof.
  intros Nm Nc. rewrite (c60_variance_of_a_ratio m c v 0 0 (/ c) (- (m / c ^ 2))) by (auto; (split; [apply d_num|now apply d_den])).
  do 2 f_equal. unfold propagated2. field. auto.
Qed.

Lemma np_py_div T d se m1 m2 e1 e2 corr df n alternative alpha : m2 <> Fin 0 ->
  finish_test T np_div d se m1 m2 e1 e2 corr df n alternative alpha = finish_test T py_div d se m1 m2 e1 e2 corr df n alternative alpha.
Proof.
  intros N. unfold finish_test, np_div, py_div. destruct (neqb m2 (Fin 0)) eqn:E; [|reflexivity].
  exfalso. apply N. destruct m2; try discriminate. apply neqb_fin in E. congruence.
Qed.

Lemma np_py_ind T m1 m2 v1 v2 n1 n2 ev alternative alpha : m2 <> Fin 0 ->
  finish_ind T np_div m1 m2 v1 v2 n1 n2 ev alternative alpha = finish_ind T py_div m1 m2 v1 v2 n1 n2 ev alternative alpha.
Proof.
  intros N. unfold finish_ind. destruct (two_sample_standard_errors _ _ _ _ _) as [[x y] z]. now apply np_py_div.
Qed.

Section Independent.
Context (T : tdist) (argsort : list num -> list nat) (HS : sorts argsort).

(** with the same denominator for all items of a sample the ratio test is the plain test of the
    divided values, wherever that test has a standard error and both averages are not zero *)
Theorem c101_constant_denominators_are_a_unit : forall xs ys c1 c2 q equal_var alternative alpha r s b d,
  sample xs -> sample ys -> 0 < c1 -> 0 < c2 ->
  yuens_t_test_ind T argsort (data (divided c1 xs)) (data (divided c2 ys)) q None None equal_var alternative alpha = Ok r ->
  r_standard_error r = Fin s -> r_control_average r = Fin b -> r_abs r = Fin d -> b <> 0 -> b + d <> 0 ->
  yuens_t_test_ind T argsort (data xs) (data ys) q (Some (data (same c1 xs))) (Some (data (same c2 ys))) equal_var alternative alpha = Ok r.
Proof.
  intros xs ys c1 c2 q ev alternative alpha r s b d Sx Sy P1 P2 H ES EB ED NB NT.
  destruct (sorted_real xs) as (sx & Px & SSx). destruct (sorted_real ys) as (sy & Py & SSy).
  assert (Gx : sorted_as xs sx) by (split; auto). assert (Gy : sorted_as ys sy) by (split; auto).
  assert (I1 : 0 < / c1) by (now apply Rinv_0_lt_compat). assert (I2 : 0 < / c2) by (now apply Rinv_0_lt_compat).
  rewrite !divided_rescaled in H. unfold yuens_t_test_ind in H. cbn [ratio_arguments bind] in H.
  apply bind_ok in H as (t1 & B1 & H). apply bind_ok in H as (t2 & B2 & H).
  assert (ONE : forall zs sz c t, sample zs -> sorted_as zs sz -> 0 < c -> 0 < / c -> mk_trimmed argsort [data (rescaled (/ c) zs)] q = Ok t ->
    exists t', np_stack [data zs; data (same c zs)] = Ok [data zs; data (same c zs)] /\ mk_trimmed argsort [data zs; data (same c zs)] q = Ok t' /\
      t_len argsort t' = t_len argsort t /\ (1 <= t_len argsort t)%nat /\
      exists m v, vec (t_mean argsort t) 0 = Fin (m / c) /\ vec (t_mean argsort t') 0 = Fin m /\ vec (t_mean argsort t') 1 = Fin c /\
        let D := Fin (IZR (Z.of_nat (t_len argsort t) - 1)) in
        vec (t_var argsort t 1) 0 = ndiv (Fin (v / (c * c))) D /\ mat (t_cov argsort t' 1) 0 0 = ndiv (Fin v) D /\
        mat (t_cov argsort t' 1) 1 1 = ndiv (Fin 0) D /\ mat (t_cov argsort t' 1) 0 1 = ndiv (Fin 0) D).
  { intros zs sz c t Sz Gz Pc Ic B.
    destruct (one_sample_moments argsort _ _ q t HS (sample_rescaled (/ c) zs Sz) (sorted_as_scale (/ c) zs sz Ic Gz) B) as (K & K2 & M & L & V).
    unfold rescaled at 1 in K. unfold rescaled at 1 in K2. unfold rescaled at 1 in L. rewrite map_length in K, K2, L.
    assert (LS : List.length (same c zs) = List.length zs) by (unfold same; apply repeat_length).
    assert (A : array (List.length zs) (fins [zs; same c zs])) by (apply sample_array; auto; [intros r0 [<-|[<-|[]]]; auto|discriminate]).
    assert (A' : array (List.length zs) [data (rescaled (/ c) zs)]).
    { destruct A as (_ & _ & A3 & A4). split; [discriminate|]. split; auto. intros r0 [<-|[]]. unfold data, rescaled. now rewrite !map_length. }
    assert (Q : is_finite q = true /\ 0 <= B2R q < 1 / 2) by (apply (c43_accepts_exactly_quantiles_below_half argsort _ q _ HS A'); eauto).
    apply (c43_accepts_exactly_quantiles_below_half argsort _ q _ HS A) in Q as (t' & B'). exists t'.
    split. { unfold np_stack. cbn [hd forallb]. unfold data. rewrite !map_length, LS, Nat.eqb_refl. reflexivity. }
    split; [exact B'|].
    destruct (two_rows argsort zs (same c zs) sz q HS Sz LS Gz t' B') as (u & w & K' & _ & L' & M' & V' & U' & W' & z & Z' & CN).
    assert (EK : t_k t' = t_k t) by lia. rewrite EK in *.
    destruct (CN c eq_refl) as (-> & -> & ->).
    destruct (scale_moments (/ c) zs sz (t_k t) Ic Gz K2) as [E1 E2]. rewrite E1 in M. rewrite E2 in V.
    split; [congruence|]. split; [rewrite L; lia|].
    exists (tmean (t_k t) sz), (tdev (t_k t) zs sz).
    split; [rewrite M; f_equal; unfold Rdiv; ring|]. split; [exact M'|]. split; [exact U'|]. cbv zeta.
    rewrite L' in V', W', Z'. rewrite L. split; [|auto].
    assert (LR : List.length (rescaled (/ c) zs) = List.length zs) by (unfold rescaled; apply map_length). rewrite LR in V.
    rewrite V. do 2 f_equal. field. lra. }
  destruct (ONE xs sx c1 t1 Sx Gx P1 I1 B1) as (u1 & N1 & U1 & L1 & G1 & m1 & v1 & M1 & M1' & C1 & V1 & V1' & W1 & Z1).
  destruct (ONE ys sy c2 t2 Sy Gy P2 I2 B2) as (u2 & N2 & U2 & L2 & G2 & m2 & v2 & M2 & M2' & C2 & V2 & V2' & W2 & Z2). clear ONE.
  unfold yuens_t_test_ind. cbn [ratio_arguments bind]. rewrite N1. cbn [bind]. rewrite N2. cbn [bind]. rewrite U1. cbn [bind]. rewrite U2. cbn [bind].
  rewrite M1', M2', C1, C2, V1', V2', W1, W2, Z1, Z2, L1, L2.
  rewrite M1, M2, V1, V2 in H. assert (F := H).
  apply finish_ind_ok in F as (se & e1 & e2 & E2 & F). destruct F. rewrite fi_control in EB. rewrite fi_abs in ED. rewrite nsub_fin in ED.
  assert (EB' : m2 / c2 = b) by congruence. assert (ED' : m1 / c1 - m2 / c2 = d) by congruence.
  assert (X1 : m1 <> 0) by (intros ->; apply NT; rewrite <- EB', <- ED'; unfold Rdiv; ring).
  assert (X2 : m2 <> 0) by (intros ->; apply NB; rewrite <- EB'; unfold Rdiv; ring).
  rewrite fi_se in ES.
  destruct (two_se_fin _ _ _ _ _ _ _ _ s E2 ES ltac:(unfold nnat; eauto) ltac:(unfold nnat; eauto)) as (a1 & a2 & A1 & A2 & _).
  apply ndiv_is_fin in A1 as (x1 & _ & D1 & _). apply ndiv_is_fin in A2 as (x2 & _ & D2 & _).
  set (h1 := IZR (Z.of_nat (t_len argsort t1) - 1)) in *. set (h2 := IZR (Z.of_nat (t_len argsort t2) - 1)) in *.
  rewrite !(ndiv_fin _ h1) by auto. rewrite !(ndiv_fin _ h2) by auto. rewrite (ndiv_fin _ h1), (ndiv_fin _ h2) in H by auto.
  replace (0 / h1) with 0 by (unfold Rdiv; ring). replace (0 / h2) with 0 by (unfold Rdiv; ring).
  rewrite !ratio_constant by lra. cbn [fst snd].
  replace (v1 / h1 / (c1 * c1)) with (v1 / (c1 * c1) / h1) by (field; repeat split; auto; lra).
  replace (v2 / h2 / (c2 * c2)) with (v2 / (c2 * c2) / h2) by (field; repeat split; auto; lra).
  rewrite np_py_ind; [exact H|]. intros X. apply NB. rewrite <- EB'. congruence.
Qed.

Lemma zero_ratio m2 v1 v2 c : snd (ratio_mean_and_variance (Fin 0) (Fin m2) v1 v2 c) = NaN.
Proof.
  unfold ratio_mean_and_variance, nsq. cbn [snd].
  assert (Z : forall x, notfin x -> nmul (Fin 0) x = NaN).
  { intros x N. destruct x as [x| | |]; [now elim (N x)| | |reflexivity]; cbn [nmul]; rewrite ?Ropp_0; apply ninf_of_0. }
  assert (NF : notfin (nsub (nadd (ndiv v1 (nmul (Fin 0) (Fin 0))) (ndiv v2 (nmul (Fin m2) (Fin m2)))) (ndiv (nmul (Fin 2) c) (nmul (Fin 0) (Fin m2))))).
  { apply notfin_nsub_l, notfin_nadd_l. cbn [nmul]. rewrite Rmult_0_l. intros r E. apply ndiv_is_fin in E as (a & _ & D & _). now apply D. }
  cbn [ndiv]. destruct (Req_bool m2 0) eqn:E.
  - rewrite ninf_of_0. reflexivity.
  -
    replace (0 / m2) with 0 by (unfold Rdiv; ring). replace (nmul (Fin 0) (Fin 0)) with (Fin 0) by (cbn [nmul]; f_equal; ring).
    apply Z. replace (nmul (Fin 0) (Fin 0)) with (Fin 0) in NF by (cbn [nmul]; f_equal; ring). exact NF.
Qed.

Lemma nan_se v1 v2 n1 n2 ev : v1 = NaN \/ v2 = NaN -> fst (fst (two_sample_standard_errors (nsqrt v1) (nsqrt v2) n1 n2 ev)) = NaN.
Proof.
  assert (MN : forall x, nmul x NaN = NaN) by (destruct x; reflexivity).
  assert (AN : forall x, nadd x NaN = NaN) by (destruct x; reflexivity).
  unfold two_sample_standard_errors, nsq. intros [-> | ->]; destruct ev; cbn [nsqrt nmul fst]; rewrite ?MN, ?AN; cbn [nadd ndiv nsqrt]; rewrite ?AN; reflexivity.
Qed.

Lemma ttest_nan d df alternative sp : ttest_from_stats T d NaN df alternative = Ok sp -> sp = (NaN, NaN).
Proof.
  unfold ttest_from_stats. replace (ndiv d NaN) with NaN by (destruct d; reflexivity). cbn [nabs nmul].
  assert (C : t_cdf T df NaN = NaN) by (unfold t_cdf; destruct (valid_df df); reflexivity). rewrite C. cbn [nmul].
  destruct (alternative =? "two-sided"); [congruence|]. destruct (alternative =? "greater"); [congruence|]. destruct (alternative =? "less"); congruence.
Qed.

(** if the numerators kept in one of the samples average zero, whatever the denominators are, the ratio
    test has neither a standard error nor a p-value and is not significant *)
Theorem c101_zero_numerators_have_no_test : forall xs ys ds es q equal_var alternative alpha r sx sy k1 k2,
  sample xs -> sample ys -> List.length ds = List.length xs -> List.length es = List.length ys -> sorted_as xs sx -> sorted_as ys sy ->
  Z.of_nat k1 = trim_each (List.length xs) q -> Z.of_nat k2 = trim_each (List.length ys) q ->
  yuens_t_test_ind T argsort (data xs) (data ys) q (Some (data ds)) (Some (data es)) equal_var alternative alpha = Ok r ->
  tmean k1 sx = 0 \/ tmean k2 sy = 0 ->
  r_standard_error r = NaN /\ r_statistic r = NaN /\ r_p_value r = NaN /\ r_significant r = false.
Proof.
  intros xs ys ds es q ev alternative alpha r sx sy k1 k2 Sx Sy Lx Ly Px Py K1 K2 H Z.
  unfold yuens_t_test_ind in H. cbn [ratio_arguments bind] in H.
  apply bind_ok in H as (r1 & N1 & H). apply bind_ok in H as (r2 & N2 & H). apply stack_ok in N1 as [-> _]. apply stack_ok in N2 as [-> _].
  apply bind_ok in H as (t1 & B1 & H). apply bind_ok in H as (t2 & B2 & H).
  destruct (two_rows argsort xs ds sx q HS Sx Lx Px t1 B1) as (u1 & w1 & E1 & _ & _ & M1 & _ & U1 & _).
  destruct (two_rows argsort ys es sy q HS Sy Ly Py t2 B2) as (u2 & w2 & E2 & _ & _ & M2 & _ & U2 & _).
  assert (t_k t1 = k1) by lia. assert (t_k t2 = k2) by lia. subst k1 k2. rewrite M1, M2, U1, U2 in H.
  apply finish_ind_ok in H as (se & e1 & e2 & E & F). destruct F.
  assert (ES : se = NaN).
  { apply (f_equal (fun p => fst (fst p))) in E. cbn [fst] in E. rewrite <- E. apply nan_se.
    destruct Z as [Z|Z]; rewrite Z; [left|right]; apply zero_ratio. }
  rewrite ES in fi_test. apply ttest_nan in fi_test. assert (r_statistic r = NaN) by congruence. assert (EP : r_p_value r = NaN) by congruence.
  split; [congruence|]. split; auto. split; auto. rewrite fi_sig, EP. reflexivity.
Qed.
End Independent.

(** *** The paired test *)
(** covariances of two numerators and two constant denominators *)
Definition known_cov (v1 v2 v12 : R) (i j : nat) : R :=
  match i, j with
  | O, O => v1
  | 2%nat, 2%nat => v2
  | O, 2%nat => v12
  | 2%nat, O => v12
  | _, _ => 0
  end.

Lemma constant_difference a b c v1 v2 v12 : c <> 0 ->
  difference_of_ratios [Fin a; Fin c; Fin b; Fin c] (matrix4 (known_cov v1 v2 v12)) =
  let V1 := snd (ratio_mean_and_variance (Fin a) (Fin c) (Fin v1) (Fin 0) (Fin 0)) in
  let V2 := snd (ratio_mean_and_variance (Fin b) (Fin c) (Fin v2) (Fin 0) (Fin 0)) in
  let DV := Fin ((v1 + v2 - 2 * v12) / (c * c)) in
  (Fin ((a - b) / c), DV, Fin (a / c), Fin (b / c), V1, V2, ndiv (nsub (nadd V1 V2) DV) (nmul (Fin 2) (nsqrt (nmul V1 V2)))).
Proof.
  intros Nc. unfold difference_of_ratios. unfold mat, vec, matrix4. cbn [nth map seq known_cov]. cbv zeta.
  assert (M : forall x v, fst (ratio_mean_and_variance (Fin x) (Fin c) (Fin v) (Fin 0) (Fin 0)) = Fin (x / c)).
  { intros x v. unfold ratio_mean_and_variance. cbn [fst]. now apply ndiv_fin. }
  rewrite !M.
  assert (E : quadratic_form [ndiv (Fin 1) (Fin c); ndiv (nneg (Fin a)) (nsq (Fin c)); ndiv (Fin (-1)) (Fin c); ndiv (Fin b) (nsq (Fin c))]
     [[Fin v1; Fin 0; Fin v12; Fin 0]; [Fin 0; Fin 0; Fin 0; Fin 0]; [Fin v12; Fin 0; Fin v2; Fin 0]; [Fin 0; Fin 0; Fin 0; Fin 0]]
     = Fin ((v1 + v2 - 2 * v12) / (c * c))).
  { unfold nsq. cbn [nmul nneg]. rewrite !ndiv_fin by (try apply Rmult_integral_contrapositive_currified; auto).
    unfold quadratic_form, ndot, vec. cbn [List.length seq map nth combine nsum fst snd nmul nadd].
    f_equal. field. auto. }
  rewrite E, nsub_fin. replace (a / c - b / c) with ((a - b) / c) by (field; auto). reflexivity.
Qed.

Section Paired.
Context (T : tdist) (argsort : list num -> list nat) (HS : sorts argsort).

Lemma codev_untrimmed t rows n r r' : finite_trimmed t rows n (t_k t) -> t_k t = 0%nat -> In r rows -> In r' rows ->
  cc argsort t rows r r' = codev r r'.
Proof.
  intros FT K Hr Hr'. unfold cc.
  assert (P := widx_untrimmed argsort t rows n HS FT K).
  set (f := fun i => nth i r 0). set (g := fun i => nth i r' 0).
  transitivity (Cv (seq 0 n) f g).
  - assert (Cv_perm : forall (l m : list nat) (f g : nat -> R), Permutation l m -> Cv l f g = Cv m f g).
    { clear. intros l m f g P.
      assert (AV : forall h : nat -> R, Av l h = Av m h) by (intros h; apply avg_perm; now apply Permutation_map).
      rewrite !Cv_S. unfold Sm. rewrite !AV. apply total_perm. now apply Permutation_map. }
    exact (Cv_perm _ _ f g P).
  - assert (LR := ft_rect _ _ _ _ FT r Hr). assert (LR' := ft_rect _ _ _ _ FT r' Hr'). unfold Cv, f, g.
    rewrite <- LR at 1. rewrite <- LR'. now rewrite !Assign_Proofs.map_nth_seq.
Qed.

(** the sample (co)variance *)
Definition cova (n : nat) (x y : list R) : R := codev x y / (INR n - 1).

Lemma untrimmed_rows (rows : list (list R)) (xs : list R) q : rows <> [] -> (forall r, In r rows -> List.length r = List.length xs) ->
  usable (List.length xs) q -> trim_each (List.length xs) q = 0%Z -> (2 <= List.length xs)%nat ->
  exists t, np_stack (map data rows) = Ok (map data rows) /\ mk_trimmed argsort (map data rows) q = Ok t /\ t_len argsort t = List.length xs /\
    t_mean argsort t = map (fun r => Fin (avg r)) rows /\
    t_cov argsort t 1 = map (fun r => map (fun r' => Fin (cova (List.length xs) r r')) rows) rows /\
    t_std argsort t 1 = map (fun r => nsqrt (Fin (cova (List.length xs) r r))) rows.
Proof.
  intros N L U TZ N2. set (n := List.length xs) in *.
  assert (L' : forall r, In r (map data rows) -> List.length r = n).
  { intros r Hr. apply in_map_iff in Hr as (r' & <- & Hr). unfold data. rewrite map_length. auto. }
  destruct (mk_trimmed_usable argsort (map data rows) q n HS U ltac:(intros E; now apply map_eq_nil in E) L') as (t & Ht & ER & EK & _).
  rewrite TZ in EK. assert (K : t_k t = 0%nat) by lia.
  exists t. split.
  { unfold np_stack. rewrite (proj2 (forallb_forall _ _)); [reflexivity|]. intros r Hr. apply Nat.eqb_eq. rewrite (L' r Hr). symmetry. apply L'.
    destruct rows; [easy|now left]. }
  split; [exact Ht|].
  assert (Sx : sample xs). { destruct U as (U1 & U2 & _). split; auto. intros E. unfold n in U1. rewrite E in U1. cbn in U1. lia. }
  assert (FT : finite_trimmed t rows n (t_k t)) by (apply (rows_finite argsort HS q xs rows t Sx L N Ht)).
  assert (LN := len_real argsort HS t rows _ _ FT). rewrite K in LN. replace (n - 2 * 0)%nat with n in LN by lia.
  assert (I : IZR (Z.of_nat n - 1) = INR n - 1) by (rewrite minus_IZR, <- INR_IZR_INZ; reflexivity).
  assert (Rn : 1 < INR n) by (apply (lt_INR 1); lia).
  split; [exact LN|]. split; [|split].
  - rewrite (mean_real argsort HS t rows _ _ FT). apply map_ext_in. intros r Hr. f_equal. now apply (avg_untrimmed argsort t rows n).
  - rewrite (cov_matrix argsort HS t rows _ _ FT). apply map_ext_in. intros r Hr. apply map_ext_in. intros r' Hr'.
    change (codev _ _) with (cc argsort t rows r r'). rewrite (codev_untrimmed t rows n r r') by auto.
    rewrite K. replace (n - 2 * 0)%nat with n by lia. rewrite I, ndiv_fin by lra. reflexivity.
  - unfold t_std. rewrite (var_real argsort HS t rows _ _ FT), map_map. apply map_ext_in. intros r Hr.
    change (codev _ _) with (cc argsort t rows r r). rewrite (codev_untrimmed t rows n r r) by auto.
    rewrite K. replace (n - 2 * 0)%nat with n by lia. rewrite I, ndiv_fin by lra. reflexivity.
Qed.

Lemma plain_untrimmed xs ys q alternative alpha :
  usable (List.length xs) q -> trim_each (List.length xs) q = 0%Z -> (2 <= List.length xs)%nat -> List.length ys = List.length xs ->
  let n := List.length xs in let se v := one_sample_standard_error (nsqrt v) (nnat n) in
  yuens_t_test_paired T argsort (data xs) (data ys) q None None alternative alpha =
  finish_test T np_div (Fin (avg xs - avg ys)) (se (Fin (cova n xs xs + cova n ys ys - 2 * cova n xs ys))) (Fin (avg xs)) (Fin (avg ys))
    (se (Fin (cova n xs xs))) (se (Fin (cova n ys ys)))
    (ndiv (Fin (cova n xs ys)) (nsqrt (nmul (Fin (cova n xs xs)) (Fin (cova n ys ys))))) (one_sample_degrees_of_freedom (nnat n)) n alternative alpha.
Proof.
  intros U TZ N2 L n se. unfold yuens_t_test_paired.
  replace (List.length (data xs)) with (List.length (data ys)) by (unfold data; now rewrite !map_length).
  rewrite Nat.eqb_refl. cbn [negb raise_if bind ratio_arguments]. rewrite differences_data.
  destruct (untrimmed_rows [minus xs ys; xs; ys] xs q) as (t & E1 & E2 & E3 & E4 & E5 & E6); auto; [discriminate| |].
  { intros r [<-|[<-|[<-|[]]]]; auto. now apply minus_length. }
  cbn [map] in E1, E2. rewrite E1. cbn [bind]. rewrite E2. cbn [bind]. rewrite E3, E4, E5, E6. cbn [map].
  unfold mat, vec. cbn [nth]. fold n.
  assert (Rn : 1 < INR n) by (apply (lt_INR 1); unfold n; lia).
  assert (SQ : forall r : list R, List.length r = n -> rtake (seq 0 n) r = r) by (intros r <-; apply Assign_Proofs.map_nth_seq).
  destruct (minus_av xs ys (seq 0 n)) as [A1 A2]; auto.
  { intros E. apply (f_equal (@List.length nat)) in E. rewrite seq_length in E. cbn in E. unfold n in E. lia. }
  { intros i Hi. apply in_seq in Hi. unfold n in Hi. lia. }
  rewrite !SQ in A1, A2 by (auto; now apply minus_length).
  rewrite A1. unfold cova at 1. rewrite A2.
  replace ((codev xs xs + codev ys ys - 2 * codev xs ys) / (INR n - 1)) with (cova n xs xs + cova n ys ys - 2 * cova n xs ys) by (unfold cova; field; lra).
  reflexivity.
Qed.

Lemma ratio_untrimmed xs ys c q alternative alpha :
  usable (List.length xs) q -> trim_each (List.length xs) q = 0%Z -> (2 <= List.length xs)%nat -> List.length ys = List.length xs -> c <> 0 ->
  let n := List.length xs in let se v := one_sample_standard_error (nsqrt v) (nnat n) in
  let V1 := snd (ratio_mean_and_variance (Fin (avg xs)) (Fin c) (Fin (cova n xs xs)) (Fin 0) (Fin 0)) in
  let V2 := snd (ratio_mean_and_variance (Fin (avg ys)) (Fin c) (Fin (cova n ys ys)) (Fin 0) (Fin 0)) in
  let DV := Fin ((cova n xs xs + cova n ys ys - 2 * cova n xs ys) / (c * c)) in
  yuens_t_test_paired T argsort (data xs) (data ys) q (Some (data (same c xs))) (Some (data (same c ys))) alternative alpha =
  finish_test T np_div (Fin ((avg xs - avg ys) / c)) (se DV) (Fin (avg xs / c)) (Fin (avg ys / c)) (se V1) (se V2)
    (ndiv (nsub (nadd V1 V2) DV) (nmul (Fin 2) (nsqrt (nmul V1 V2)))) (one_sample_degrees_of_freedom (nnat n)) n alternative alpha.
Proof.
  intros U TZ N2 L Nc n se V1 V2 DV. unfold yuens_t_test_paired.
  replace (List.length (data xs)) with (List.length (data ys)) by (unfold data; now rewrite !map_length).
  rewrite Nat.eqb_refl. cbn [negb raise_if bind ratio_arguments]. rewrite differences_data.
  assert (ES : same c ys = same c xs) by (unfold same; now rewrite L). rewrite ES.
  destruct (untrimmed_rows [minus xs ys; xs; same c xs; ys; same c xs] xs q) as (t & E1 & E2 & E3 & E4 & E5 & _); auto; [discriminate| |].
  { intros r [<-|[<-|[<-|[<-|[<-|[]]]]]]; auto; [now apply minus_length| |]; unfold same; apply repeat_length. }
  cbn [map] in E1, E2. rewrite E1. cbn [bind]. rewrite E2. cbn [bind]. rewrite E3, E4, E5. cbn [map tl]. fold n.
  assert (NN : seq 0 n <> []). { intros E. apply (f_equal (@List.length nat)) in E. rewrite seq_length in E. cbn in E. unfold n in E. lia. }
  assert (RS : same c xs = repeat c (List.length (seq 0 n))) by (rewrite seq_length; reflexivity).
  assert (SQ : forall r : list R, List.length r = n -> map (fun i => nth i r 0) (seq 0 n) = r) by (intros r <-; apply Assign_Proofs.map_nth_seq).
  assert (AC : avg (same c xs) = c) by (rewrite RS; now apply avg_const).
  assert (C0 : cova n (same c xs) (same c xs) = 0) by (unfold cova, same; rewrite codev_repeat; unfold Rdiv; ring).
  assert (CR : forall r, List.length r = n -> cova n r (same c xs) = 0 /\ cova n (same c xs) r = 0).
  { intros r Lr. unfold cova. rewrite RS. rewrite <- (SQ r Lr). rewrite codev_const_r, codev_const_l by auto. split; unfold Rdiv; ring. }
  destruct (CR xs eq_refl) as [Cx Cx']. destruct (CR ys L) as [Cy Cy'].
  assert (CS : cova n ys xs = cova n xs ys).
  { unfold cova. f_equal. rewrite <- (SQ xs eq_refl), <- (SQ ys L). exact (Cv_sym (seq 0 n) (fun i => nth i ys 0) (fun i => nth i xs 0)). }
  rewrite AC, C0, Cx, Cx', Cy, Cy', CS.
  assert (D := constant_difference (avg xs) (avg ys) c (cova n xs xs) (cova n ys ys) (cova n xs ys) Nc).
  unfold matrix4 in D. cbn [map seq known_cov] in D. rewrite D. reflexivity.
Qed.

Lemma cova_divided n c x y : c <> 0 -> (0 < n)%nat -> List.length x = n -> List.length y = n -> cova n (divided c x) (divided c y) = cova n x y / (c * c).
Proof.
  intros Nc Pn Lx Ly. unfold cova.
  assert (NN : seq 0 n <> []) by (destruct n; [lia|discriminate]).
  assert (SQ : forall r : list R, List.length r = n -> map (fun i => nth i r 0) (seq 0 n) = r) by (intros r <-; apply Assign_Proofs.map_nth_seq).
  assert (E : codev (divided c x) (divided c y) = codev x y / (c * c)).
  { rewrite <- (SQ x Lx), <- (SQ y Ly). unfold divided. rewrite !map_map.
    set (f := fun i => nth i x 0). set (g := fun i => nth i y 0).
    transitivity (Cv (seq 0 n) (fun i => / c * f i + 0 * 0) (fun i => / c * g i + 0 * 0)).
    { apply Cv_ext; intros i _; unfold Rdiv, f, g; ring. }
    rewrite Cv_lin_l, !Cv_lin_r, !Cv_const_l, !Cv_const_r by auto. change (codev (map f (seq 0 n)) (map g (seq 0 n))) with (Cv (seq 0 n) f g). field. auto. }
  rewrite E. unfold Rdiv. ring.
Qed.

Lemma avg_divided c x : c <> 0 -> x <> [] -> avg (divided c x) = avg x / c.
Proof.
  intros Nc N. unfold divided. rewrite (map_ext _ (fun v => / c * v + 0)) by (intros; unfold Rdiv; ring). rewrite avg_affine by auto. unfold Rdiv. ring.
Qed.

(** the same for the paired test without trimming *)
Theorem c101_constant_denominators_are_a_unit_paired : forall xs ys c q alternative alpha,
  usable (List.length xs) q -> B2R q = 0 -> List.length ys = List.length xs -> (2 <= List.length xs)%nat -> 0 < c -> avg xs <> 0 -> avg ys <> 0 ->
  yuens_t_test_paired T argsort (data xs) (data ys) q (Some (data (same c xs))) (Some (data (same c ys))) alternative alpha =
  yuens_t_test_paired T argsort (data (divided c xs)) (data (divided c ys)) q None None alternative alpha.
Proof.
  intros xs ys c q alternative alpha U Q L N2 Pc Ax Ay. assert (Nc : c <> 0) by lra.
  assert (TZ : trim_each (List.length xs) q = 0%Z) by (unfold trim_each; rewrite Q, Rmult_0_l, rnd_0; apply (Zfloor_IZR 0)).
  assert (LD : forall z, List.length (divided c z) = List.length z) by (intros; unfold divided; apply map_length).
  rewrite (ratio_untrimmed xs ys c q) by auto.
  rewrite (plain_untrimmed (divided c xs) (divided c ys) q) by (rewrite !LD; auto).
  cbv zeta. rewrite LD. set (n := List.length xs).
  assert (Nx : xs <> []) by (intros E; rewrite E in N2; cbn in N2; lia).
  assert (Ny : ys <> []) by (intros E; rewrite E in L; cbn in L; lia).
  rewrite !avg_divided by auto. rewrite !cova_divided by (auto; unfold n; lia).
  rewrite !ratio_constant by auto. cbn [snd].
  set (a := cova n xs xs). set (b := cova n ys ys). set (k := cova n xs ys).
  replace (avg xs / c - avg ys / c) with ((avg xs - avg ys) / c) by (field; auto).
  replace (a / (c * c) + b / (c * c) - 2 * (k / (c * c))) with ((a + b - 2 * k) / (c * c)) by (field; auto).
  assert (EC : ndiv (nsub (nadd (Fin (a / (c * c))) (Fin (b / (c * c)))) (Fin ((a + b - 2 * k) / (c * c))))
     (nmul (Fin 2) (nsqrt (nmul (Fin (a / (c * c))) (Fin (b / (c * c)))))) =
     ndiv (Fin (k / (c * c))) (nsqrt (nmul (Fin (a / (c * c))) (Fin (b / (c * c)))))).
  { cbn [nmul nadd]. rewrite nsub_fin.
    assert (Rn : 1 < INR n) by (apply (lt_INR 1); unfold n; lia).
    assert (Pa : 0 <= a / (c * c)). { unfold a, cova. rewrite codev_self. apply Rmult_le_pos; [apply Rmult_le_pos; [apply sqdev_nonneg|]|]; apply Rlt_le, Rinv_0_lt_compat; nra. }
    assert (Pb : 0 <= b / (c * c)). { unfold b, cova. rewrite codev_self. apply Rmult_le_pos; [apply Rmult_le_pos; [apply sqdev_nonneg|]|]; apply Rlt_le, Rinv_0_lt_compat; nra. }
    rewrite nsqrt_fin by (now apply Rmult_le_pos). cbn [nmul]. set (w := sqrt _).
    replace (a / (c * c) + b / (c * c) - (a + b - 2 * k) / (c * c)) with (2 * (k / (c * c))) by (field; auto).
    destruct (Req_dec w 0) as [W|W].
    - rewrite W, Rmult_0_r. assert (CS : k ^ 2 <= a * b).
      { unfold k, a, b, cova. assert (SQ : forall r : list R, List.length r = n -> map (fun i => nth i r 0) (seq 0 n) = r) by (intros r <-; apply Assign_Proofs.map_nth_seq).
        assert (C := Cv_cauchy (seq 0 n) (fun i => nth i xs 0) (fun i => nth i ys 0)). unfold Cv in C. rewrite !SQ in C by auto.
        assert (I : 0 < / (INR n - 1)) by (apply Rinv_0_lt_compat; lra). unfold Rdiv. nra. }
      assert (Z : a / (c * c) * (b / (c * c)) = 0) by (apply sqrt_eq_0; auto; now apply Rmult_le_pos).
      assert (AB : a * b = 0). { replace (a / (c * c) * (b / (c * c))) with (a * b / (c * c * (c * c))) in Z by (field; auto).
        replace (a * b) with (a * b / (c * c * (c * c)) * (c * c * (c * c))) by (field; auto). rewrite Z. ring. }
      assert (k = 0) by nra. subst k. rewrite H. replace (2 * (0 / (c * c))) with 0 by (unfold Rdiv; ring). replace (0 / (c * c)) with 0 by (unfold Rdiv; ring). reflexivity.
    - rewrite !ndiv_fin by lra. f_equal. field. split; auto. }
  rewrite EC. reflexivity.
Qed.

(** numerators that average zero: estimate, standard error and p-value are those of the plain test of
    the divided values, but the bounds of the interval are not numbers *)
Theorem c101_zero_numerators_have_no_interval_paired : forall xs ys c q alternative alpha r r',
  usable (List.length xs) q -> B2R q = 0 -> List.length ys = List.length xs -> (2 <= List.length xs)%nat -> 0 < c -> avg xs = 0 \/ avg ys = 0 ->
  yuens_t_test_paired T argsort (data xs) (data ys) q (Some (data (same c xs))) (Some (data (same c ys))) alternative alpha = Ok r ->
  yuens_t_test_paired T argsort (data (divided c xs)) (data (divided c ys)) q None None alternative alpha = Ok r' ->
  r_abs r = r_abs r' /\ r_standard_error r = r_standard_error r' /\ r_p_value r = r_p_value r' /\ r_significant r = r_significant r' /\
  r_abs_lower r = (if alternative =? "less" then NInf else NaN) /\ r_abs_upper r = (if alternative =? "greater" then PInf else NaN).
Proof.
  intros xs ys c q alternative alpha r r' U Q L N2 Pc Z H H'. assert (Nc : c <> 0) by lra.
  assert (TZ : trim_each (List.length xs) q = 0%Z) by (unfold trim_each; rewrite Q, Rmult_0_l, rnd_0; apply (Zfloor_IZR 0)).
  assert (LD : forall z, List.length (divided c z) = List.length z) by (intros; unfold divided; apply map_length).
  rewrite (ratio_untrimmed xs ys c q) in H by auto.
  rewrite (plain_untrimmed (divided c xs) (divided c ys) q) in H' by (rewrite !LD; auto).
  cbv zeta in H, H'. rewrite LD in H'. set (n := List.length xs) in *.
  assert (Nx : xs <> []) by (intros E; subst xs; cbn in N2; lia).
  assert (Ny : ys <> []) by (intros E; subst ys; cbn in L; lia).
  rewrite !avg_divided in H' by auto. rewrite !cova_divided in H' by (auto; unfold n; lia).
  set (a := cova n xs xs) in *. set (b := cova n ys ys) in *. set (k := cova n xs ys) in *.
  replace (avg xs / c - avg ys / c) with ((avg xs - avg ys) / c) in H' by (field; auto).
  replace (a / (c * c) + b / (c * c) - 2 * (k / (c * c))) with ((a + b - 2 * k) / (c * c)) in H' by (field; auto).
  apply finish_test_ok in H. apply finish_test_ok in H'. destruct H, H'.
  split; [congruence|]. split; [congruence|]. rewrite fi_test in fi_test0. assert (EP : r_p_value r = r_p_value r') by congruence.
  split; auto. split; [congruence|].
  set (V1 := snd (ratio_mean_and_variance (Fin (avg xs)) (Fin c) (Fin a) (Fin 0) (Fin 0))) in *.
  set (V2 := snd (ratio_mean_and_variance (Fin (avg ys)) (Fin c) (Fin b) (Fin 0) (Fin 0))) in *.
  assert (MN : forall x, nmul x NaN = NaN) by (destruct x; reflexivity).
  assert (SN : forall x, nsub x NaN = NaN) by (destruct x; reflexivity).
  assert (AN : forall x, nadd x NaN = NaN) by (destruct x; reflexivity).
  assert (VN : V1 = NaN \/ V2 = NaN).
  { destruct Z as [Z|Z]; [left; unfold V1|right; unfold V2]; rewrite Z; apply zero_ratio. }
  assert (EN : nsqrt (nsub (nadd (nsq (one_sample_standard_error (nsqrt V1) (nnat n))) (nsq (one_sample_standard_error (nsqrt V2) (nnat n))))
     (nmul (Fin 2) (nmul (nmul (one_sample_standard_error (nsqrt V1) (nnat n)) (one_sample_standard_error (nsqrt V2) (nnat n)))
        (ndiv (nsub (nadd V1 V2) (Fin ((a + b - 2 * k) / (c * c)))) (nmul (Fin 2) (nsqrt (nmul V1 V2))))))) = NaN).
  { destruct VN as [-> | ->]; unfold one_sample_standard_error, nsq; cbn [nsqrt ndiv nmul nadd]; rewrite ?MN, ?AN; reflexivity. }
  unfold absolute_difference_confidence_interval in fi_ci. rewrite EN, !MN, !SN, !AN in fi_ci.
  destruct (String.eqb_spec alternative "two-sided") as [->|_]; [injection fi_ci as <- <-; split; reflexivity|].
  destruct (String.eqb_spec alternative "greater") as [->|_]; [injection fi_ci as <- <-; split; reflexivity|].
  destruct (String.eqb alternative "less"); [injection fi_ci as <- <-; split; reflexivity|discriminate].
Qed.
End Paired.

(** *** Cases *)
Lemma two_usable : usable 2 f0.
Proof. apply usable_0; [lia|vm_compute; discriminate]. Qed.
Lemma two_sample (x y : R) : sample [x; y].
Proof. split; [discriminate|]. cbn [List.length]. destruct two_usable as (_ & B & _). exact B. Qed.

(** the plain test of two values each *)
Lemma pair_test x y x' y' : 0 <= (x + y) / 2 -> 0 < (x' + y') / 2 ->
  exists r s, yuens_t_test_ind cauchy argsort_ref (data [x; y]) (data [x'; y']) f0 None None false "two-sided" Analysis_Model.default_alpha = Ok r /\
    r_abs r = Fin ((x + y) / 2 - (x' + y') / 2) /\ r_control_average r = Fin ((x' + y') / 2) /\ r_standard_error r = Fin s.
Proof.
  intros P1 P2. assert (A : forall a b : R, avg [a; b] = (a + b) / 2) by (intros; unfold avg; simpl; field).
  destruct (Effect_Props.positive_runs [x; y] [x'; y'] two_usable two_usable) as (r & H); rewrite ?A; auto.
  exists r. destruct (Adjust_Props.untrimmed_test _ _ _ _ _ r argsort_ref_sorts (two_sample x y) (two_sample x' y') (proj2 f0_val) H) as [EA ES].
  destruct (ES ltac:(cbn; lia) ltac:(cbn; lia)) as (s & E & _). rewrite !A in EA.
  exists s. split; auto. split; auto. split; auto.
  destruct (Effect_Props.sorted_exists [x; y]) as (s1 & S1). destruct (Effect_Props.sorted_exists [x'; y']) as (s0 & S0).
  destruct (c51_what_the_test_computes cauchy argsort_ref _ _ f0 _ _ _ r s1 s0 argsort_ref_sorts (two_sample x y) (two_sample x' y') S1 S0 H) as (k1 & k2 & E1 & E2 & G).
  assert (TZ : trim_each 2 f0 = 0%Z) by (unfold trim_each; rewrite (proj2 f0_val), Rmult_0_l, rnd_0; apply (Zfloor_IZR 0)).
  cbn [List.length] in E1, E2. rewrite TZ in E1, E2. assert (k1 = 0%nat) by lia. assert (k2 = 0%nat) by lia. subst k1 k2.
  cbv zeta in G. destruct G as (_ & _ & _ & EC & _). rewrite (tmean_0 _ _ S0), A in EC. exact EC.
Qed.

Example c101_example_unit : exists r s b d,
  yuens_t_test_ind cauchy argsort_ref (data (divided 2 [2; 6])) (data (divided 4 [4; 12])) f0 None None false "two-sided" Analysis_Model.default_alpha = Ok r /\
  r_standard_error r = Fin s /\ r_control_average r = Fin b /\ r_abs r = Fin d /\ b <> 0 /\ b + d <> 0 /\
  yuens_t_test_ind cauchy argsort_ref (data [2; 6]) (data [4; 12]) f0 (Some (data (same 2 [2; 6]))) (Some (data (same 4 [4; 12]))) false
    "two-sided" Analysis_Model.default_alpha = Ok r.
Proof.
  destruct (pair_test (2 / 2) (6 / 2) (4 / 4) (12 / 4)) as (r & s & H & EA & EC & ES); try lra.
  exists r, s. do 2 eexists. split; [exact H|]. split; [exact ES|]. split; [exact EC|]. split; [exact EA|]. split; [lra|]. split; [lra|].
  eapply (c101_constant_denominators_are_a_unit cauchy argsort_ref argsort_ref_sorts); try exact H; try exact ES; try exact EC; try exact EA; try lra; apply two_sample.
Qed.

(** no conversion in the treatment arm: the plain test has a standard error and the ratio test with
    denominators one has none, though the ratios are the plain values *)
Theorem c101_constant_denominators_without_conversions_refuted : exists r r' s,
  yuens_t_test_ind cauchy argsort_ref (data (divided 1 [0; 0])) (data (divided 1 [1; 3])) f0 None None false "two-sided" Analysis_Model.default_alpha = Ok r /\
  yuens_t_test_ind cauchy argsort_ref (data [0; 0]) (data [1; 3]) f0 (Some (data (same 1 [0; 0]))) (Some (data (same 1 [1; 3]))) false
    "two-sided" Analysis_Model.default_alpha = Ok r' /\
  r_standard_error r = Fin s /\ r_standard_error r' = NaN /\ r_p_value r' = NaN.
Proof.
  destruct (pair_test (0 / 1) (0 / 1) (1 / 1) (3 / 1)) as (r & s & H & EA & EC & ES); try lra.
  assert (RUN : exists r', yuens_t_test_ind cauchy argsort_ref (data [0; 0]) (data [1; 3]) f0 (Some (data (same 1 [0; 0]))) (Some (data (same 1 [1; 3]))) false
    "two-sided" Analysis_Model.default_alpha = Ok r').
  { unfold yuens_t_test_ind. cbn [ratio_arguments bind].
    assert (LL : forall x y z w : R, forall r0, In r0 [data [x; y]; data [z; w]] -> List.length r0 = 2%nat) by (intros x y z w r0 [<-|[<-|[]]]; reflexivity).
    destruct (mk_trimmed_usable argsort_ref [data [0; 0]; data [1; 1]] f0 2 argsort_ref_sorts two_usable ltac:(discriminate) (LL _ _ _ _)) as (t1 & E1 & _).
    destruct (mk_trimmed_usable argsort_ref [data [1; 3]; data [1; 1]] f0 2 argsort_ref_sorts two_usable ltac:(discriminate) (LL _ _ _ _)) as (t2 & E2 & _).
    change (same 1 [0; 0]) with [1; 1]. change (same 1 [1; 3]) with [1; 1]. unfold np_stack. cbn [hd forallb data map List.length Nat.eqb andb negb raise_if bind].
    change (map Fin [0; 0]) with (data [0; 0]). unfold data in E1, E2. cbn [map] in E1, E2. rewrite E1. cbn [bind]. rewrite E2. cbn [bind].
    unfold finish_ind. destruct (two_sample_standard_errors _ _ _ _ _) as [[x y] z]. apply finish_test_total; [left; reflexivity|]. intros. eexists. reflexivity. }
  destruct RUN as (r' & H'). exists r, r', s. split; [exact H|]. split; [exact H'|]. split; [exact ES|].
  destruct (Effect_Props.sorted_exists [0; 0]) as (s1 & S1). destruct (Effect_Props.sorted_exists [1; 3]) as (s0 & S0).
  assert (TZ : trim_each 2 f0 = 0%Z) by (unfold trim_each; rewrite (proj2 f0_val), Rmult_0_l, rnd_0; apply (Zfloor_IZR 0)).
  destruct (c101_zero_numerators_have_no_test cauchy argsort_ref argsort_ref_sorts [0; 0] [1; 3] (same 1 [0; 0]) (same 1 [1; 3]) f0 false "two-sided" Analysis_Model.default_alpha r' s1 s0 0%nat 0%nat
    (two_sample 0 0) (two_sample 1 3) eq_refl eq_refl S1 S0 (eq_sym TZ) (eq_sym TZ) H') as (E & _ & P & _); auto.
  left. rewrite (tmean_0 _ _ S1). unfold avg. simpl. field.
Qed.

Example c101_example_paired :
  usable (List.length [2; 6]) f0 /\ B2R f0 = 0 /\ avg [2; 6] <> 0 /\ avg [4; 12] <> 0 /\
  exists r, yuens_t_test_paired cauchy argsort_ref (data [2; 6]) (data [4; 12]) f0 (Some (data (same 2 [2; 6]))) (Some (data (same 2 [4; 12]))) "two-sided" Analysis_Model.default_alpha = Ok r.
Proof.
  split; [exact two_usable|]. split; [exact (proj2 f0_val)|]. split; [unfold avg; simpl; lra|]. split; [unfold avg; simpl; lra|].
  apply Analyzer_Props.paired_ratio_runs; auto; [exact argsort_ref_sorts|exact two_usable|left; reflexivity].
Qed.

(** no conversion under the treatment: the paired ratio test has a p-value and no interval *)
Example c101_example_paired_zero : exists r p,
  yuens_t_test_paired cauchy argsort_ref (data [0; 0]) (data [1; 3]) f0 (Some (data (same 1 [0; 0]))) (Some (data (same 1 [1; 3]))) "two-sided" Analysis_Model.default_alpha = Ok r /\
  r_p_value r = Fin p /\ r_abs_lower r = NaN /\ r_abs_upper r = NaN.
Proof.
  destruct (Analyzer_Props.paired_ratio_runs cauchy argsort_ref [0; 0] [1; 3] (same 1 [0; 0]) (same 1 [1; 3]) f0 "two-sided" Analysis_Model.default_alpha argsort_ref_sorts two_usable
    eq_refl eq_refl eq_refl ltac:(left; reflexivity)) as (r & H).
  destruct (paired_runs cauchy argsort_ref (divided 1 [0; 0]) (divided 1 [1; 3]) f0 "two-sided" Analysis_Model.default_alpha argsort_ref_sorts two_usable eq_refl ltac:(left; reflexivity)) as (r' & H').
  destruct (c101_zero_numerators_have_no_interval_paired cauchy argsort_ref argsort_ref_sorts [0; 0] [1; 3] 1 f0 "two-sided" Analysis_Model.default_alpha r r' two_usable (proj2 f0_val) eq_refl
    ltac:(cbn; lia) ltac:(lra)) as (_ & _ & EP & _ & EL & EU); auto.
  { left. unfold avg. simpl. field. }
  assert (TZ : trim_each 2 f0 = 0%Z) by (unfold trim_each; rewrite (proj2 f0_val), Rmult_0_l, rnd_0; apply (Zfloor_IZR 0)).
  rewrite (plain_untrimmed cauchy argsort_ref argsort_ref_sorts (divided 1 [0; 0]) (divided 1 [1; 3]) f0) in H'; [|exact two_usable|exact TZ|cbn; lia|reflexivity].
  cbv zeta in H'. apply finish_test_ok in H'. destruct H'. clear fi_ci fi_rel.
  assert (ED : cova (List.length (divided 1 [0; 0])) (divided 1 [0; 0]) (divided 1 [0; 0]) + cova (List.length (divided 1 [0; 0])) (divided 1 [1; 3]) (divided 1 [1; 3]) -
    2 * cova (List.length (divided 1 [0; 0])) (divided 1 [0; 0]) (divided 1 [1; 3]) = 2) by (unfold cova, codev, avg, divided; simpl; field).
  rewrite ED in fi_test.
  assert (SE : exists e, 0 < e /\ one_sample_standard_error (nsqrt (Fin 2)) (nnat (List.length (divided 1 [0; 0]))) = Fin e).
  { unfold one_sample_standard_error, nnat. change (List.length (divided 1 [0; 0])) with 2%nat. assert (I : 0 < INR 2) by (simpl; lra).
    rewrite !nsqrt_fin by lra. assert (0 < sqrt (INR 2)) by (now apply sqrt_lt_R0). rewrite ndiv_fin by lra. eexists. split; [|reflexivity].
    apply Rmult_lt_0_compat; [apply sqrt_lt_R0; lra|now apply Rinv_0_lt_compat]. }
  destruct SE as (e & Pe & SE). rewrite SE in fi_test.
  assert (VD : valid_df (one_sample_degrees_of_freedom (nnat (List.length (divided 1 [0; 0])))) = true).
  { unfold one_sample_degrees_of_freedom, nnat. change (List.length (divided 1 [0; 0])) with 2%nat. rewrite nsub_fin. cbn [valid_df]. apply Rlt_bool_true. simpl. lra. }
  unfold ttest_from_stats in fi_test. cbn [String.eqb Ascii.eqb Bool.eqb] in fi_test. rewrite ndiv_fin in fi_test by lra.
  unfold t_cdf in fi_test. rewrite VD in fi_test. cbn [nabs nmul] in fi_test.
  exists r. eexists. split; [exact H|]. split; [rewrite EP; apply (f_equal (fun x => match x with Ok y => snd y | Err _ => NaN end)) in fi_test; cbn [snd] in fi_test; symmetry; exact fi_test|auto].
Qed.

Print Assumptions c101_constant_denominators_are_a_unit.
Print Assumptions c101_zero_numerators_have_no_test.
Print Assumptions c101_constant_denominators_are_a_unit_paired.
Print Assumptions c101_zero_numerators_have_no_interval_paired.
Print Assumptions c101_constant_denominators_without_conversions_refuted.
