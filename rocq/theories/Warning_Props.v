(** C84: the warnings printed when a trimmed array is built. *)
From Coq Require Import ZArith Reals Lra Lia List Bool Permutation Sorting.Sorted.
From Flocq Require Import Core BinarySingleNaN.
Require Import Verif.Base Verif.Num Verif.NumOrd Verif.F64 Verif.ListLib
  Verif.Trimmed_Model Verif.Trimmed_Spec Verif.Moments Verif.Trimmed_Proofs Verif.Trimmed_Real Verif.Trimmed_Props Verif.Cuped_Props.
Import ListNotations.
Open Scope R_scope.

(** a value that counts as equal to the value [b] *)
Definition close_to (b a : num) : Prop :=
  (exists x y, a = Fin x /\ b = Fin y /\ Rabs (x - y) <= / 100000000 + Rabs y / 100000) \/
  (a = PInf /\ b = PInf) \/ (a = NInf /\ b = NInf).
(** a sample that counts as constant: all values are close to the first *)
Definition looks_constant (r : list num) : Prop := exists b l, r = b :: l /\ forall a, In a r -> close_to b a.

Lemma close_iff a b : nisclose a b = true <-> close_to b a.
Proof.
  unfold close_to. split.
  - destruct a, b; cbn; try discriminate; auto. intros H. revert H. case Rle_bool_spec; [|discriminate]. intros H _. left. do 2 eexists. split; [reflexivity|].
    split; [reflexivity|]. lra.
  - intros [(x & y & -> & -> & H)|[[-> ->]|[-> ->]]]; auto. cbn. apply Rle_bool_true. lra.
Qed.

Lemma constant_iff r : r <> [] -> (forallb (fun x => nisclose x (hd NaN r)) r = true <-> looks_constant r).
Proof.
  intros N. rewrite forallb_forall. destruct r as [|b l]; [congruence|]. cbn [hd]. split.
  - intros H. exists b, l. split; auto. intros a Ha. now apply close_iff, H.
  - intros (b' & l' & E & H) a Ha. injection E as <- <-. now apply close_iff, H.
Qed.

Lemma any_constant_iff rows b : any_array_is_constant rows = Ok b ->
  (b = true <-> exists r, In r rows /\ looks_constant r).
Proof.
  unfold any_array_is_constant. intros H. apply bind_ok in H as (u & H & E). apply raise_if_ok in H. rewrite existsb_false_iff in H.
  injection E as <-. rewrite existsb_exists. split; intros (r & Hr & C); exists r; split; auto; revert C; apply constant_iff;
    intros ->; now specialize (H _ Hr).
Qed.

Theorem c84_warnings :
  forall argsort rows q t, mk_trimmed argsort rows q = Ok t ->
    (t_warning t = Some WConstant <-> exists r, In r rows /\ looks_constant r) /\
    (t_warning t = Some WConstantAfterTrimming <->
       ~ (exists r, In r rows /\ looks_constant r) /\ exists r, In r (values_trimmed argsort t) /\ looks_constant r).
Proof.
  intros argsort rows q t H. unfold mk_trimmed in H. apply bind_ok in H as (u & _ & H). apply bind_ok in H as (k & _ & H).
  destruct rows as [|r0 l]; [discriminate|]. set (rows := r0 :: l) in *. apply bind_ok in H as (u2 & _ & H). apply bind_ok in H as (b & Hb & H).
  apply any_constant_iff in Hb. destruct b.
  - injection H as <-. cbn [t_warning]. split; [tauto|]. split; [discriminate|tauto].
  - apply bind_ok in H as (b' & Hb' & H). apply any_constant_iff in Hb'. injection H as <-. unfold values_trimmed. cbn [t_warning t_rows t_k].
    assert (N : ~ exists r, In r rows /\ looks_constant r) by (intros X; apply Hb in X; discriminate).
    split; [split; [destruct b'; discriminate|tauto]|]. destruct b'; split; try tauto; try discriminate.
Qed.

Lemma repeat_looks x n : looks_constant (map Fin (repeat x (S n))).
Proof.
  exists (Fin x), (map Fin (repeat x n)). split; [reflexivity|]. intros a Ha. apply in_map_iff in Ha as (y & <- & Hy). apply repeat_spec in Hy as ->.
  left. exists x, x. split; auto. split; auto. rewrite Rminus_diag_eq, Rabs_R0 by reflexivity. generalize (Rabs_pos x). lra.
Qed.

(** a sample of equal values is always reported *)
Theorem c84_equal_values_are_reported :
  forall argsort rows q t x n, mk_trimmed argsort rows q = Ok t -> In (map Fin (repeat x (S n))) rows -> t_warning t = Some WConstant.
Proof.
  intros argsort rows q t x n H I. apply (proj1 (c84_warnings _ _ _ _ H)). eexists. split; [exact I|apply repeat_looks].
Qed.

(** without a warning every variance is positive, so no standard error is zero *)
Theorem c84_no_warning_means_positive_variances :
  forall argsort rows q n t ddof, sorts argsort -> array n (fins rows) -> mk_trimmed argsort (fins rows) q = Ok t ->
    (ddof < Z.of_nat (n - 2 * t_k t))%Z -> t_warning t = None ->
    exists vs, t_var argsort t ddof = map Fin vs /\ Forall (fun v => 0 < v) vs.
Proof.
  intros argsort rows q n t ddof HS HA H HD HW. assert (FT := trimmed_finite _ _ _ _ _ HS HA H).
  rewrite (var_real_fin argsort HS t rows n (t_k t) FT) by auto.
  destruct (c84_warnings _ _ _ _ H) as [W1 W2].
  eexists. rewrite <- (map_map _ Fin). split; [reflexivity|]. apply Forall_forall. intros v Hv. apply in_map_iff in Hv as (r & <- & Hr).
  unfold rcov. rewrite codev_self. set (w := widx argsort t rows (t_k t)).
  assert (DP : 0 < IZR (Z.of_nat (n - 2 * t_k t) - ddof)) by (apply IZR_lt; lia).
  apply Rdiv_lt_0_compat; auto. destruct (sqdev_nonneg (rtake w r)) as [P|Z]; auto. exfalso.
  assert (NW : w <> []) by apply (widx_nonempty argsort HS t rows n (t_k t) FT).
  assert (NR : rtake w r <> []) by (unfold rtake; destruct w; [congruence|discriminate]).
  assert (E := sqdev_zero_repeat _ NR (eq_sym Z)). set (a := avg (rtake w r)) in *.
  assert (K : rtake (t_kept argsort t) r = repeat a (length (t_kept argsort t))).
  { assert (A : forall x, In x (rtake w r) -> x = a) by (intros x Hx; rewrite E in Hx; now apply repeat_spec in Hx).
    assert (B : forall i, In i (t_kept argsort t) -> nth i r 0 = a).
    { intros i Hi. apply A. unfold rtake. apply in_map_iff. exists i. split; auto.
      now apply (widx_kept argsort HS t rows n (t_k t) FT). }
    unfold rtake. now apply map_const. }
  assert (KN : t_kept argsort t <> []) by apply (kept_nonempty argsort HS t rows n (t_k t) FT).
  assert (L : looks_constant (map Fin (rtake (t_kept argsort t) r))).
  { rewrite K. destruct (t_kept argsort t); [congruence|]. cbn [length]. apply repeat_looks. }
  assert (X : t_warning t = Some WConstantAfterTrimming).
  { apply W2. split.
    - intros Y. apply W1 in Y. congruence.
    - exists (map Fin (rtake (t_kept argsort t) r)). split; auto. rewrite (values_real argsort HS t rows n (t_k t) FT). apply in_map_iff. eauto. }
  congruence.
Qed.

(** the tolerance is absolute as well as relative: small values are reported although they vary, and
    the same values in other units are not *)
Definition small_values : list R := [/ 1000000000; 3 / 1000000000; 2 / 1000000000].
Theorem c84_only_constant_samples_are_reported_refuted :
  exists t t', mk_trimmed argsort_ref (fins [small_values]) f0 = Ok t /\ t_warning t = Some WConstant /\
    (exists v, t_var argsort_ref t 1 = [Fin v] /\ 0 < v) /\
    mk_trimmed argsort_ref (fins [map (fun x => 1000000000 * x) small_values]) f0 = Ok t' /\ t_warning t' = None.
Proof.
  assert (AR : forall l, length l = 3%nat -> array 3 (fins [l])).
  { intros l L. repeat split; try discriminate; try lia. intros r [<-|[]]. now rewrite map_length. }
  destruct (usable_0 3) as [U0 _]; [lia|lia|].
  assert (GO : forall l, length l = 3%nat -> exists t, mk_trimmed argsort_ref (fins [l]) f0 = Ok t /\ t_k t = 0%nat).
  { intros l L. destruct U0 as (_ & _ & F & Q). destruct (mk_trimmed_succeeds argsort_ref (fins [l]) f0 3 argsort_ref_sorts) as (t & k & E & _ & K & TK & _); auto; try discriminate; try lia.
    - intros r [<-|[]]. now rewrite map_length.
    - exists t. split; auto. rewrite TK. destruct (usable_0 3) as [_ T0]; [lia|lia|]. apply floor_mul_ok in K as (_ & _ & _ & K).
      unfold trim_each in T0. rewrite rnd_IZR in K by lia. rewrite <- INR_IZR_INZ in K. rewrite T0 in K. lia. }
  destruct (GO small_values eq_refl) as (t & E & K). destruct (GO (map (fun x => 1000000000 * x) small_values) eq_refl) as (t' & E' & K').
  exists t, t'. split; [exact E|]. split; [|split; [|split; [exact E'|]]].
  - apply (proj1 (c84_warnings _ _ _ _ E)). eexists. split; [left; reflexivity|]. eexists. eexists. split; [reflexivity|].
    intros a Ha. left. cbn in Ha. assert (P := Rabs_pos (/ 1000000000)).
    destruct Ha as [<-|[<-|[<-|[]]]]; do 2 eexists; (split; [reflexivity|]); (split; [reflexivity|]);
      (eapply Rle_trans; [|apply Rplus_le_compat_l; apply Rmult_le_pos; [exact P|lra]]); apply Rabs_le; lra.
  - rewrite (var_real_fin argsort_ref argsort_ref_sorts t [small_values] 3 (t_k t) (trimmed_finite _ _ _ _ _ argsort_ref_sorts (AR small_values eq_refl) E)) by (rewrite K; cbn; lia).
    cbn [map]. eexists. split; [reflexivity|]. unfold rcov. rewrite K.
    assert (W : rtake (widx argsort_ref t [small_values] 0) small_values = small_values).
    { unfold widx. cbn [repeat]. rewrite !app_nil_r. unfold t_kept, kept_index. rewrite K. cbn [Nat.eqb]. 
      assert (TR := ft_rows _ _ _ _ (trimmed_finite _ _ _ _ _ argsort_ref_sorts (AR small_values eq_refl) E)). rewrite TR. reflexivity. }
    rewrite W. unfold codev, avg, total, small_values. cbn. lra.
  - destruct (c84_warnings _ _ _ _ E') as [W1 W2].
    assert (NC : ~ looks_constant (map Fin (map (fun x => 1000000000 * x) small_values))).
    { intros (b & l & EQ & H). injection EQ as <- <-. destruct (H (Fin (1000000000 * (3 / 1000000000)))) as [(x & y & X & Y & L)|[[X _]|[X _]]]; try discriminate.
      - right; left; reflexivity.
      - injection X as <-. injection Y as <-. revert L. replace (1000000000 * (3 / 1000000000)) with 3 by field. replace (1000000000 * / 1000000000) with 1 by field.
        replace (3 - 1) with 2 by ring. rewrite !Rabs_pos_eq by lra. lra. }
    destruct (t_warning t') as [[|]|]; auto; exfalso.
    + destruct (proj1 W1 eq_refl) as (r & [<-|[]] & C). auto.
    + destruct (proj1 W2 eq_refl) as (_ & r & Hr & C). 
      rewrite (values_real argsort_ref argsort_ref_sorts t' _ 3 (t_k t') (trimmed_finite _ _ _ _ _ argsort_ref_sorts (AR (map (fun x => 1000000000 * x) small_values) eq_refl) E')) in Hr.
      destruct Hr as [<-|[]]. revert C. unfold t_kept, kept_index. rewrite K'. cbn [Nat.eqb].
      assert (TR := ft_rows _ _ _ _ (trimmed_finite _ _ _ _ _ argsort_ref_sorts (AR (map (fun x => 1000000000 * x) small_values) eq_refl) E')). rewrite TR. exact NC.
Qed.

(** warned only after trimming: 1, 2, 2, 2, 2, 2, 9 trimmed by one on each side *)
Definition late_values : list R := [1; 2; 2; 2; 2; 2; 9].
Example c84_example : exists t, mk_trimmed argsort_ref (fins [late_values]) (flit 1 7) = Ok t /\ t_k t = 1%nat /\
  t_warning t = Some WConstantAfterTrimming.
Proof.
  assert (A : array 7 (fins [late_values])).
  { split; [discriminate|]. split; [intros r [<-|[]]; reflexivity|]. split; [lia|]. vm_compute. discriminate. }
  assert (E : floor_mul (flit 1 7) 7 = Ok 1%Z) by (vm_compute; reflexivity).
  assert (K : (fltb (flit 1 7) f0 || fgeb (flit 1 7) fhalf)%bool = false) by (vm_compute; reflexivity).
  assert (Q : is_finite (flit 1 7) = true /\ 0 <= B2R (flit 1 7) < 1 / 2) by (apply (quantile_checks _ 1 7); auto; vm_compute; discriminate).
  assert (Q' := Q). apply (c43_accepts_exactly_quantiles_below_half argsort_ref _ _ _ argsort_ref_sorts A) in Q' as [t Ht].
  assert (TK : t_k t = 1%nat).
  { pose proof Ht as Ht'. apply mk_trimmed_inv in Ht' as (_ & _ & _ & k & E' & ->).
    change (Z.of_nat (sample_size (fins [late_values]))) with 7%Z in E'. rewrite E in E'. now injection E' as <-. }
  exists t. split; auto. split; auto. apply (proj2 (c84_warnings _ _ _ _ Ht)). split.
  - intros (r & [<-|[]] & b & l & EQ & H). injection EQ as <- <-.
    assert (I : In (Fin 2) (map Fin late_values)) by (right; left; reflexivity).
    destruct (H (Fin 2) I) as [(x & y & X & Y & L)|[[X _]|[X _]]]; [|discriminate X|discriminate X].
    injection X as <-. injection Y as <-. revert L. replace (2 - 1) with 1 by ring. rewrite !Rabs_pos_eq by lra. lra.
  - assert (FT := trimmed_finite _ _ _ _ _ argsort_ref_sorts A Ht). rewrite TK in FT.
    rewrite (values_real argsort_ref argsort_ref_sorts t _ 7 1 FT). cbn [map]. eexists. split; [left; reflexivity|].
    assert (SS : StronglySorted Rle late_values) by (unfold late_values; repeat first [apply SSorted_cons | apply SSorted_nil | apply Forall_cons | apply Forall_nil]; lra).
    assert (P := kept_middle argsort_ref argsort_ref_sorts t _ 7 1 FT late_values (Permutation_refl _) SS). cbn [hd] in P.
    assert (C : forall x, In x (rtake (t_kept argsort_ref t) late_values) -> x = 2).
    { intros x Hx. apply (Permutation_in _ P) in Hx. cbn in Hx. intuition. }
    assert (R : rtake (t_kept argsort_ref t) late_values = repeat 2 (S 4)).
    { rewrite <- (map_id (rtake _ _)). rewrite (map_const (fun x => x) 2) by exact C. f_equal. now rewrite (Permutation_length P). }
    rewrite R. apply repeat_looks.
Qed.
Print Assumptions c84_warnings.
Print Assumptions c84_equal_values_are_reported.
Print Assumptions c84_no_warning_means_positive_variances.
Print Assumptions c84_only_constant_samples_are_reported_refuted.
