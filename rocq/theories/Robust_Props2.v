(** C94, continued: what trimming protects the t-tests against. *)
From Coq Require Import ZArith Reals Lra Lia List String Bool Permutation Sorting.Sorted.
From Flocq Require Import Core BinarySingleNaN.
Require Import Verif.Base Verif.Num Verif.NumOrd Verif.F64 Verif.ListLib
  Verif.Assign_Proofs Verif.Trimmed_Model Verif.Trimmed_Spec Verif.Moments Verif.Trimmed_Proofs Verif.Trimmed_Real
  Verif.Trimmed_Props Verif.Cuped_Props Verif.Stats_Model Verif.Stats_Num Verif.Stats_Props Verif.Tests_Proofs
  Verif.Tests_Props Verif.Robust_Proofs Verif.Robust_Props.
Import ListNotations.
Open Scope string_scope.
Open Scope list_scope.
Open Scope R_scope.

Lemma good_row argsort ys rows q t bad lo hi k :
  sorts argsort -> array (List.length ys) (ys :: rows) -> mk_trimmed argsort (ys :: rows) q = Ok t ->
  Z.of_nat k = trim_each (List.length ys) q -> (List.length bad <= k)%nat -> good_outside bad lo hi ys ->
  t_k t = k /\ (2 * k < List.length ys)%nat /\ t_len argsort t = (List.length ys - 2 * k)%nat /\
  exists m, hd NaN (t_mean argsort t) = Fin m /\ lo <= m <= hi /\
    ((2 <= List.length ys - 2 * k)%nat -> exists v, hd NaN (t_var argsort t 1) = Fin v /\ 0 <= v /\ hd NaN (t_std argsort t 1) = Fin (sqrt v)).
Proof.
  intros HS HA Ht HK HB HG.
  destruct (c43_trims_floor_of_quantile_times_n argsort _ q _ t HS HA Ht) as (EK & H2 & L & _).
  assert (E : t_k t = k) by (unfold trim_each in HK; lia).
  split; [exact E|]. rewrite E in *. split; [lia|]. split; [lia|].
  destruct (c94_resists_as_many_outliers_as_are_trimmed argsort ys rows q _ t bad lo hi 0 HS HA Ht) as (m & w & v & M & BM & _);
    [lia|auto|rewrite E; lia|].
  exists m. split; [auto|]. split; [auto|]. intros H.
  destruct (c94_resists_as_many_outliers_as_are_trimmed argsort ys rows q _ t bad lo hi 1 HS HA Ht) as (m' & w' & v' & _ & _ & _ & _ & V & SD & BV);
    [lia|auto|rewrite E; lia|]. exists v'. split; [auto|]. split; [lra|auto].
Qed.

(** the independent test: in each arm as many wrong values as are trimmed on a side *)
Theorem c94_independent_test_resists_outliers :
  forall T argsort ys1 ys2 q equal_var alternative alpha r k1 k2 bad1 bad2 lo1 hi1 lo2 hi2,
    sorts argsort -> array (List.length ys1) [ys1] -> array (List.length ys2) [ys2] ->
    yuens_t_test_ind T argsort ys1 ys2 q None None equal_var alternative alpha = Ok r ->
    Z.of_nat k1 = trim_each (List.length ys1) q -> Z.of_nat k2 = trim_each (List.length ys2) q ->
    (List.length bad1 <= k1)%nat -> (List.length bad2 <= k2)%nat ->
    good_outside bad1 lo1 hi1 ys1 -> good_outside bad2 lo2 hi2 ys2 ->
    exists d c, r_abs r = Fin d /\ lo1 - hi2 <= d <= hi1 - lo2 /\
      r_control_average r = Fin c /\ lo2 <= c <= hi2 /\
      ((2 <= List.length ys1 - 2 * k1)%nat -> (2 <= List.length ys2 - 2 * k2)%nat ->
       exists s, r_standard_error r = Fin s /\ 0 <= s).
Proof.
  intros T argsort ys1 ys2 q ev alternative alpha r k1 k2 bad1 bad2 lo1 hi1 lo2 hi2 HS A1 A2 H K1 K2 B1 B2 G1 G2.
  unfold yuens_t_test_ind in H. cbn [ratio_arguments bind] in H.
  apply bind_ok in H as (t1 & Ht1 & H). apply bind_ok in H as (t2 & Ht2 & H).
  apply finish_ind_ok in H as (se & e1 & e2 & ES & FI).
  destruct (good_row argsort ys1 [] q t1 bad1 lo1 hi1 k1 HS A1 Ht1 K1 B1 G1) as (_ & _ & L1 & m1 & M1 & BM1 & V1).
  destruct (good_row argsort ys2 [] q t2 bad2 lo2 hi2 k2 HS A2 Ht2 K2 B2 G2) as (_ & _ & L2 & m2 & M2 & BM2 & V2).
  assert (VM : forall l, vec l 0 = hd NaN l) by (intros [|]; reflexivity).
  rewrite !VM in *. rewrite M1, M2 in FI.
  exists (m1 - m2), m2.
  split; [rewrite (fi_abs _ _ _ _ _ _ _ _ _ _ _ _ _ _ FI); reflexivity|]. split; [lra|].
  split; [exact (fi_control _ _ _ _ _ _ _ _ _ _ _ _ _ _ FI)|]. split; [lra|].
  intros H1 H2. destruct (V1 H1) as (v1 & E1 & P1 & _). destruct (V2 H2) as (v2 & E2 & P2 & _).
  rewrite E1, E2, !nsqrt_fin, L1, L2 in ES by auto.
  destruct (c55_standard_errors (sqrt v1) (sqrt v2) (INR (List.length ys1 - 2 * k1)) (INR (List.length ys2 - 2 * k2)) ev)
    as (s & f1 & f2 & E & P & _); try apply sqrt_pos.
  { change 1 with (INR 1). apply lt_INR. lia. }
  { change 1 with (INR 1). apply lt_INR. lia. }
  unfold nnat in ES. rewrite ES in E. exists s. rewrite (fi_se _ _ _ _ _ _ _ _ _ _ _ _ _ _ FI). split; [congruence|auto].
Qed.

(** the paired test: as many wrong differences as are trimmed on a side *)
Theorem c94_paired_test_resists_outliers :
  forall T argsort ys1 ys2 q alternative alpha r k bad lo hi,
    sorts argsort -> array (List.length ys1) [ys1] ->
    yuens_t_test_paired T argsort ys1 ys2 q None None alternative alpha = Ok r ->
    Z.of_nat k = trim_each (List.length ys1) q -> (List.length bad <= k)%nat ->
    (forall i, (i < List.length ys1)%nat -> ~ In i bad ->
       exists x y, nth i ys1 NaN = Fin x /\ nth i ys2 NaN = Fin y /\ lo <= x - y <= hi) ->
    exists d, r_abs r = Fin d /\ lo <= d <= hi /\
      ((2 <= List.length ys1 - 2 * k)%nat -> exists s, r_standard_error r = Fin s /\ 0 <= s).
Proof.
  intros T argsort ys1 ys2 q alternative alpha r k bad lo hi HS A H HK HB HG.
  unfold yuens_t_test_paired in H. apply bind_ok in H as (u & HL & H). apply raise_if_ok in HL.
  apply negb_false_iff, Nat.eqb_eq in HL. cbn [ratio_arguments bind] in H.
  apply bind_ok in H as (rows & HR & H). unfold np_stack in HR. apply bind_ok in HR as (u2 & HX & HR).
  injection HR as <-. apply bind_ok in H as (t & Ht & H). apply finish_test_ok in H as FI.
  set (ds := differences ys1 ys2) in *.
  assert (LD : List.length ds = List.length ys1) by (unfold ds, differences; rewrite map_length, combine_length; lia).
  assert (AD : array (List.length ds) (ds :: [ys1; ys2])).
  { rewrite LD. destruct A as (_ & _ & P0 & P1). repeat split; auto; [discriminate|]. intros r' [<-|[<-|[<-|[]]]]; auto. }
  assert (GD : good_outside bad lo hi ds).
  { intros i Hi Hn. rewrite LD in Hi. destruct (HG i Hi Hn) as (x & y & E1 & E2 & B).
    exists (x - y). split; [|exact B]. unfold ds, differences.
    rewrite nth_indep with (d' := nsub NaN NaN) by (rewrite map_length, combine_length; lia).
    rewrite (map_nth (fun p => nsub (fst p) (snd p)) (combine ys1 ys2) (NaN, NaN)), combine_nth by auto.
    cbn [fst snd]. rewrite E1, E2. reflexivity. }
  assert (HK' : Z.of_nat k = trim_each (List.length ds) q) by (rewrite LD; auto).
  destruct (good_row argsort ds [ys1; ys2] q t bad lo hi k HS AD Ht HK' HB GD) as (_ & _ & L & m & M & BM & V).
  assert (VM : forall l, vec l 0 = hd NaN l) by (intros [|]; reflexivity).
  rewrite !VM in FI.
  exists m. split; [now rewrite (fi_abs _ _ _ _ _ _ _ _ _ _ _ _ _ _ FI)|]. split; [auto|].
  intros H2. rewrite LD in V, L. destruct (V H2) as (v & _ & PV & SD).
  exists (sqrt v / sqrt (INR (List.length ys1 - 2 * k))).
  assert (PN : 0 < sqrt (INR (List.length ys1 - 2 * k))) by (apply sqrt_lt_R0, lt_0_INR; lia).
  split.
  - rewrite (fi_se _ _ _ _ _ _ _ _ _ _ _ _ _ _ FI).
    destruct (t_std argsort t 1) as [|a l]; [discriminate|]. cbn [map hd] in *. rewrite SD, L.
    unfold one_sample_standard_error, nnat. rewrite nsqrt_fin by (apply pos_INR). apply ndiv_fin. lra.
  - apply Rmult_le_pos; [apply sqrt_pos|]. apply Rlt_le, Rinv_0_lt_compat. exact PN.
Qed.

(** non-trivial case: seven values in each arm, two of them missing or infinite, two trimmed on each
    side; both tests return a result *)
Example c94_example_tests : forall T,
  let ys1 := [Fin 4; NaN; Fin 5; Fin 7; NInf; Fin 6; Fin 9] in
  let ys2 := [Fin 1; Fin 3; Fin 2; PInf; NaN; Fin 2; Fin 5] in
  let ys3 := [Fin 1; Fin 3; Fin 2; Fin 2; NaN; Fin 2; Fin 5] in
  (exists r d s, yuens_t_test_ind T argsort_ref ys1 ys2 (flit 2 7) None None false "two-sided" (1/20) = Ok r /\
     r_abs r = Fin d /\ 4 - 5 <= d <= 9 - 1 /\ r_standard_error r = Fin s) /\
  (exists r d s, yuens_t_test_paired T argsort_ref ys1 ys3 (flit 2 7) None None "two-sided" (1/20) = Ok r /\
     r_abs r = Fin d /\ 3 <= d <= 5 /\ r_standard_error r = Fin s).
Proof.
  intros T ys1 ys2 ys3. destruct c49_example as [U TE].
  assert (AR : forall ys : list num, List.length ys = 7%nat -> array 7 [ys]).
  { intros ys L. split; [discriminate|]. split; [intros r [<-|[]]; auto|]. split; [lia|]. vm_compute. discriminate. }
  assert (G1 : good_outside [1; 4]%nat 4 9 ys1).
  { intros i Hi Hn. do 7 (destruct i as [|i]; [first [solve [exfalso; apply Hn; simpl; tauto] | cbn [nth ys1]; eexists; split; [reflexivity|lra]]|]).
    simpl in Hi. lia. }
  assert (G2 : good_outside [3; 4]%nat 1 5 ys2).
  { intros i Hi Hn. do 7 (destruct i as [|i]; [first [solve [exfalso; apply Hn; simpl; tauto] | cbn [nth ys2]; eexists; split; [reflexivity|lra]]|]).
    simpl in Hi. lia. }
  split.
  - assert (R : exists r, yuens_t_test_ind T argsort_ref ys1 ys2 (flit 2 7) None None false "two-sided" (1/20) = Ok r).
    { unfold yuens_t_test_ind. cbn [ratio_arguments bind].
      destruct (mk_trimmed_usable argsort_ref [ys1] (flit 2 7) 7 argsort_ref_sorts U) as (t1 & E1 & _); [discriminate|intros r [<-|[]]; reflexivity|].
      destruct (mk_trimmed_usable argsort_ref [ys2] (flit 2 7) 7 argsort_ref_sorts U) as (t2 & E2 & _); [discriminate|intros r [<-|[]]; reflexivity|].
      destruct (good_row argsort_ref ys2 [] (flit 2 7) t2 [3; 4]%nat 1 5 2 argsort_ref_sorts (AR ys2 eq_refl) E2 (eq_sym TE) (le_n 2) G2) as (_ & _ & _ & m & M & B & _).
      rewrite E1, E2. cbn [bind]. unfold finish_ind. destruct (two_sample_standard_errors _ _ _ _ _) as [[se e1] e2].
      apply finish_test_total; [left; reflexivity|]. intros N1 N2. clear N1 N2. unfold py_div, vec.
      replace (nth 0 (t_mean argsort_ref t2) NaN) with (Fin m) by (rewrite <- M; destruct (t_mean argsort_ref t2); reflexivity).
      cbn [neqb]. destruct (Req_bool m 0) eqn:EZ; [|eauto]. revert EZ. case Req_bool_spec; [lra|discriminate]. }
    destruct R as (r & R). 
    destruct (c94_independent_test_resists_outliers T argsort_ref ys1 ys2 (flit 2 7) false "two-sided" (1/20) r 2 2 [1; 4]%nat [3; 4]%nat 4 9 1 5
      argsort_ref_sorts (AR ys1 eq_refl) (AR ys2 eq_refl) R (eq_sym TE) (eq_sym TE) (le_n 2) (le_n 2) G1 G2) as (d & c & D & BD & _ & _ & SE).
    destruct SE as (s & SE & _); [simpl; lia|simpl; lia|]. exists r, d, s. auto.
  - assert (R : exists r, yuens_t_test_paired T argsort_ref ys1 ys3 (flit 2 7) None None "two-sided" (1/20) = Ok r).
    { unfold yuens_t_test_paired. cbn [List.length Nat.eqb negb raise_if bind ratio_arguments ys1 ys3 differences combine map np_stack forallb hd andb fst snd].
      match goal with |- context [mk_trimmed argsort_ref ?rows ?q] =>
        destruct (mk_trimmed_usable argsort_ref rows q 7 argsort_ref_sorts U) as (t & E & _); [discriminate|intros r [<-|[<-|[<-|[]]]]; reflexivity|] end.
      rewrite E. cbn [bind]. apply finish_test_total; [left; reflexivity|]. intros N1 N2. eexists. reflexivity. }
    destruct R as (r & R).
    destruct (c94_paired_test_resists_outliers T argsort_ref ys1 ys3 (flit 2 7) "two-sided" (1/20) r 2 [1; 4]%nat 3 5
      argsort_ref_sorts (AR ys1 eq_refl) R (eq_sym TE) (le_n 2)) as (d & D & BD & SE).
    { intros i Hi Hn. do 7 (destruct i as [|i]; [first [solve [exfalso; apply Hn; simpl; tauto] | cbn [nth ys1 ys3]; do 2 eexists; split; [reflexivity|split; [reflexivity|lra]]]|]).
      simpl in Hi. lia. }
    destruct SE as (s & SE & _); [simpl; lia|]. exists r, d, s. auto.
Qed.

Print Assumptions c94_independent_test_resists_outliers.
Print Assumptions c94_paired_test_resists_outliers.
