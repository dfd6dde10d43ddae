(** C43-C47: trimmed arrays. *)
From Coq Require Import ZArith Reals Lra Lia List Bool Permutation Sorting.Sorted.
From Flocq Require Import Core BinarySingleNaN.
Require Import Verif.Base Verif.Num Verif.NumOrd Verif.F64 Verif.ListLib
  Verif.Assign_Proofs Verif.Design_Model Verif.Design_Spec Verif.Design_Proofs Verif.Design_Yaml_Proofs
  Verif.Trimmed_Model Verif.Trimmed_Spec Verif.Moments Verif.Trimmed_Proofs Verif.Trimmed_Real.
Import ListNotations.
Open Scope R_scope.

(** an array that numpy can hold: at least one row, all rows of the same length n > 0 *)
Definition array {A} (n : nat) (rows : list (list A)) : Prop :=
  rows <> [] /\ (forall r, In r rows -> length r = n) /\ (0 < n)%nat /\ (Z.of_nat n <= 2 ^ 53)%Z.

(** a sorting routine satisfying [sorts] exists *)
Definition nan_lastb (x y : num) : bool := orb (nleb x y) (nis_nan y).
Definition argsort_ref (l : list num) : list nat :=
  isort (fun i j => nan_lastb (nth i l NaN) (nth j l NaN)) (seq 0 (length l)).
Lemma nan_lastb_spec x y : nan_lastb x y = true <-> nan_last x y.
Proof.
  unfold nan_lastb, nan_last. rewrite orb_true_iff.
  assert (nis_nan y = true <-> y = NaN) by (destruct y; simpl; split; congruence). tauto.
Qed.
Example argsort_ref_sorts : sorts argsort_ref.
Proof.
  intros l. split; [apply isort_perm|]. unfold argsort_ref.
  match goal with |- StronglySorted _ (isort ?leb ?l) => assert (S : StronglySorted (le_of leb) (isort leb l)) end.
  { apply isort_sorted.
    - intros x y z. rewrite !nan_lastb_spec. apply nan_last_trans.
    - intros x y. rewrite !nan_lastb_spec. apply nan_last_total. }
  eapply (SSorted_map _ _ (fun x => x)) in S; [rewrite map_id in S; exact S|].
  intros x y _ _. unfold le_of. cbv beta. now rewrite nan_lastb_spec.
Qed.

(** C43 *)
Theorem c43_accepts_exactly_quantiles_below_half :
  forall argsort rows q n, sorts argsort -> array n rows ->
    ((exists t, mk_trimmed argsort rows q = Ok t) <-> is_finite q = true /\ 0 <= B2R q < 1 / 2).
Proof.
  intros argsort rows q n HS (HN & HR & H0 & HB). split.
  - intros [t H]. apply mk_trimmed_inv in H as (_ & _ & HC & k & HK & _).
    apply (quantile_checks q k (Z.of_nat (sample_size rows))); auto.
    + unfold sample_size. destruct rows as [|r rows]; [congruence|]. cbn [hd]. rewrite (HR r); [auto|now left].
    + lia.
  - intros [Fq Hq]. destruct (mk_trimmed_succeeds argsort rows q n) as (t & k & H & _); auto. eauto.
Qed.

Theorem c43_trims_floor_of_quantile_times_n :
  forall argsort rows q n t, sorts argsort -> array n rows -> mk_trimmed argsort rows q = Ok t ->
    Z.of_nat (t_k t) = Zfloor (rnd (B2R q * INR n)) /\ (2 * t_k t < n)%nat /\
    t_len argsort t = (n - 2 * t_k t)%nat /\
    (forall row, In row (values_trimmed argsort t) -> length row = (n - 2 * t_k t)%nat).
Proof.
  intros argsort rows q n t HS HA H.
  assert (HQ : is_finite q = true /\ 0 <= B2R q < 1 / 2)
    by (apply (c43_accepts_exactly_quantiles_below_half argsort rows q n HS HA); eauto).
  destruct HQ as [Fq Hq]. destruct HA as (HN & HR & H0 & HB).
  destruct (mk_trimmed_succeeds argsort rows q n HS HN HR H0 HB Fq Hq) as (t' & k & E & ER & EK & Ek & H2).
  assert (t' = t) by congruence. subst t'. rewrite Ek.
  assert (SZ : sample_size rows = n). { unfold sample_size. destruct rows; [congruence|]. apply HR; now left. }
  split. { apply floor_mul_ok in EK as (_ & _ & _ & ->). rewrite rnd_IZR by lia. now rewrite <- INR_IZR_INZ. }
  split; auto.
  assert (HL : forall row, In row (values_trimmed argsort t) -> length row = (n - 2 * k)%nat).
  { intros row Hrow. unfold values_trimmed in Hrow. rewrite <- SZ, <- Ek, <- ER.
    eapply values_trimmed_length; eauto. rewrite ER, SZ, Ek. lia. }
  split; auto. unfold t_len. apply HL. unfold values_trimmed, values_trimmed_of. rewrite ER.
  destruct rows; [congruence|now left].
Qed.

Theorem c43_length_assertion_never_fires :
  forall argsort rows q n, sorts argsort -> array n rows ->
    forall site, mk_trimmed argsort rows q <> Err (AssertionError site).
Proof.
  intros argsort rows q n HS HA site H.
  destruct (fltb q f0 || fgeb q fhalf)%bool eqn:EB.
  { unfold mk_trimmed in H. rewrite EB in H. discriminate. }
  destruct (floor_mul q (Z.of_nat (sample_size rows))) as [k|e] eqn:EK.
  - assert (G : exists t, mk_trimmed argsort rows q = Ok t); [|destruct G; congruence].
    apply (c43_accepts_exactly_quantiles_below_half argsort rows q n HS HA).
    destruct HA as (HN & HR & H0 & HB). apply (quantile_checks q k (Z.of_nat (sample_size rows))); auto; [|lia].
    unfold sample_size. destruct rows as [|r rows]; [congruence|]. cbn [hd]. rewrite (HR r); [auto|now left].
  - unfold mk_trimmed in H. rewrite EB in H. cbn [raise_if bind] in H. rewrite EK in H. cbn [bind] in H.
    injection H as ->. unfold floor_mul, int_floor in EK.
    destruct (is_finite (of_Z _)); [|discriminate]. destruct (fmul q _); discriminate.
Qed.

(** arrays without samples are rejected whatever the quantile *)
Theorem c43_empty_arrays_are_rejected :
  forall argsort rows q, In [] rows -> forall t, mk_trimmed argsort rows q <> Ok t.
Proof.
  intros argsort rows q HI t H. unfold mk_trimmed in H.
  apply bind_ok in H as (u & _ & H). apply bind_ok in H as (k & _ & H).
  destruct rows as [|r rows]; [discriminate|]. apply bind_ok in H as (u2 & _ & H).
  apply bind_ok in H as (b & Hb & _). unfold any_array_is_constant in Hb.
  apply bind_ok in Hb as (u3 & Hb & _). apply raise_if_ok in Hb.
  rewrite existsb_false_iff in Hb. now specialize (Hb _ HI).
Qed.

(** the number of samples left is the design's n_items_after_post_trim *)
Theorem c43_same_count_as_the_design :
  forall argsort p d rows n, sorts argsort -> mk_design p = Ok d -> array n rows ->
    Z.of_nat n = n_pre d ->
    exists t, mk_trimmed argsort rows (post p) = Ok t /\ Z.of_nat (t_len argsort t) = n_post d.
Proof.
  intros argsort p d rows n HS HD HA Hn.
  assert (HD' := HD). unfold mk_design in HD'.
  apply bind_ok in HD' as (a & Ha & HD'). apply bind_ok in HD' as (b & Hb & HD').
  apply bind_ok in HD' as (k & Hk & HD'). apply bind_ok in HD' as (u & Hv & HD').
  match type of HD' with Ok ?x = _ => assert (HX : x = d) by congruence end.
  clear HD'. subst d. cbn [n_pre n_post] in *. rewrite <- Hn in Hk.
  assert (HQ : is_finite (post p) = true /\ 0 <= B2R (post p) < 1 / 2).
  { eapply quantile_checks; [| |  |exact Hk]; [apply HA|lia|].
    unfold validate_design in Hv. cbn [par] in Hv.
    repeat (apply bind_ok in Hv as (? & ? & Hv)).
    repeat match goal with K : raise_if _ _ = Ok _ |- _ => apply raise_if_ok in K end.
    apply orb_false_intro; assumption. }
  apply (c43_accepts_exactly_quantiles_below_half argsort rows (post p) n HS HA) in HQ as [t Ht].
  exists t. split; auto.
  destruct (c43_trims_floor_of_quantile_times_n argsort rows (post p) n t HS HA Ht) as (E & H2 & L & _).
  rewrite L. apply floor_mul_ok in Hk as (_ & _ & _ & Hk). destruct HA as (_ & _ & _ & HB).
  rewrite rnd_IZR in Hk by lia. rewrite <- INR_IZR_INZ in Hk. lia.
Qed.

Definition ex_row : list R := [20; 4; 5; 7; 1; 12; 9].
Example c43_example : array 7 [map Fin ex_row] /\ exists t, mk_trimmed argsort_ref [map Fin ex_row] (flit 2 7) = Ok t /\ t_k t = 2%nat.
Proof.
  assert (A : array 7 [map Fin ex_row]).
  { split; [discriminate|]. split; [intros r [<-|[]]; reflexivity|]. split; [lia|]. vm_compute. discriminate. }
  split; auto.
  assert (E : floor_mul (flit 2 7) 7 = Ok 2%Z) by (vm_compute; reflexivity).
  assert (K : (fltb (flit 2 7) f0 || fgeb (flit 2 7) fhalf)%bool = false) by (vm_compute; reflexivity).
  assert (Q : is_finite (flit 2 7) = true /\ 0 <= B2R (flit 2 7) < 1 / 2) by (apply (quantile_checks _ 2 7); auto; vm_compute; discriminate).
  assert (Q' := Q). apply (c43_accepts_exactly_quantiles_below_half argsort_ref _ _ _ argsort_ref_sorts A) in Q' as [t Ht].
  exists t. split; auto. apply mk_trimmed_inv in Ht as (_ & _ & _ & k & E' & ->).
  change (Z.of_nat (sample_size [map Fin ex_row])) with 7%Z in E'. rewrite E in E'. now injection E' as <-.
Qed.

(** C44: exactly the middle order statistics of the first row are kept, in the original order *)
Theorem c44_keeps_the_middle_order_statistics :
  forall argsort rows q n t, sorts argsort -> array n rows -> mk_trimmed argsort rows q = Ok t ->
    exists idx, StronglySorted lt idx /\ (forall i, In i idx -> (i < n)%nat) /\
      values_trimmed argsort t = map (fun row => map (fun i => nth i row NaN) idx) rows /\
      forall s, ascending (hd [] rows) s ->
        Permutation (map (fun i => nth i (hd [] rows) NaN) idx) (middle (t_k t) s).
Proof.
  intros argsort rows q n t HS HA H. exists (t_kept argsort t).
  apply mk_trimmed_inv in H as (ER & HN & _). unfold t_kept. rewrite ER.
  split; [now apply kept_sorted|]. split.
  { intros i Hi. apply (kept_lt argsort HS) in Hi. destruct HA as (_ & HR & _). unfold sample_size in Hi.
    rewrite (HR (hd [] rows)) in Hi; auto. destruct rows; [congruence|now left]. }
  split. { unfold values_trimmed, values_trimmed_of. now rewrite ER. }
  intros s Hs. now apply kept_values.
Qed.

Lemma nsum_perm l m : Permutation l m -> nsum l = nsum m.
Proof. induction 1; simpl; try congruence. now rewrite !nadd_assoc, (nadd_comm y x). Qed.

(** how argsort treats equal values does not matter *)
Theorem c44_ties_do_not_matter :
  forall as1 as2 rows q n t1 t2, sorts as1 -> sorts as2 -> array n rows ->
    mk_trimmed as1 rows q = Ok t1 -> mk_trimmed as2 rows q = Ok t2 ->
    Permutation (hd [] (values_trimmed as1 t1)) (hd [] (values_trimmed as2 t2)) /\
    hd NaN (t_mean as1 t1) = hd NaN (t_mean as2 t2).
Proof.
  intros as1 as2 rows q n t1 t2 S1 S2 HA H1 H2.
  assert (EK : t_k t1 = t_k t2).
  { apply mk_trimmed_inv in H1 as (_ & _ & _ & k1 & A1 & B1). apply mk_trimmed_inv in H2 as (_ & _ & _ & k2 & A2 & B2).
    congruence. }
  assert (Q : forall s, ascending (hd [] rows) s ->
    Permutation (hd [] (values_trimmed as1 t1)) (middle (t_k t1) s) /\
    Permutation (hd [] (values_trimmed as2 t2)) (middle (t_k t1) s)).
  { intros s Hs.
    destruct (c44_keeps_the_middle_order_statistics as1 rows q n t1 S1 HA H1) as (i1 & _ & _ & V1 & P1).
    destruct (c44_keeps_the_middle_order_statistics as2 rows q n t2 S2 HA H2) as (i2 & _ & _ & V2 & P2).
    rewrite V1, V2. destruct HA as (HN & _). destruct rows as [|r rows]; [congruence|]. cbn [map hd] in *.
    rewrite EK at 2. auto. }
  destruct (Q _ (argsort_ascending as1 S1 (hd [] rows))) as [Q1 Q2].
  assert (P : Permutation (hd [] (values_trimmed as1 t1)) (hd [] (values_trimmed as2 t2))) by (etransitivity; eauto; now symmetry).
  split; auto. unfold t_mean. revert P.
  apply mk_trimmed_inv in H1 as (R1 & N1 & _). apply mk_trimmed_inv in H2 as (R2 & _).
  unfold values_trimmed, values_trimmed_of. rewrite R1, R2. destruct rows as [|r rows]; [congruence|]. cbn [map hd].
  intros P. now rewrite (nsum_perm _ _ P), (Permutation_length P).
Qed.

(** from here on: finite data *)
Lemma trimmed_finite argsort rows q n t : sorts argsort -> array n (fins rows) ->
  mk_trimmed argsort (fins rows) q = Ok t -> finite_trimmed t rows n (t_k t).
Proof.
  intros HS HA H.
  destruct (c43_trims_floor_of_quantile_times_n argsort _ q n t HS HA H) as (_ & H2 & _).
  apply mk_trimmed_inv in H as (ER & HN & _). destruct HA as (_ & HR & _).
  constructor; auto.
  - intros ->. now apply HN.
  - intros r Hr. rewrite <- (HR (map Fin r)); [now rewrite map_length|]. unfold fins. now apply in_map.
Qed.

Lemma sqdev_nonneg l : 0 <= sqdev l.
Proof.
  unfold sqdev. rewrite <- (map_map (fun x => x - avg l) (fun y => y ^ 2)).
  generalize (map (fun x => x - avg l) l). clear. induction l as [|a l IH]; [simpl; lra|].
  change (0 <= a ^ 2 + total (map (fun y => y ^ 2) l)). generalize (pow2_ge_0 a). lra.
Qed.

(** C45: winsorized moments of the first row *)
Theorem c45_winsorized_moments :
  forall argsort rows q n t s ddof, sorts argsort -> array n (fins rows) ->
    mk_trimmed argsort (fins rows) q = Ok t ->
    Permutation (hd [] rows) s -> StronglySorted Rle s ->
    (ddof < Z.of_nat (n - 2 * t_k t))%Z ->
    let lo := nth (t_k t) s 0 in
    let hi := nth (n - 1 - t_k t) s 0 in
    let clipped := map (clip lo hi) (hd [] rows) in
    let var := sqdev clipped / IZR (Z.of_nat (n - 2 * t_k t) - ddof) in
    hd NaN (winsorized_mean argsort t) = Fin (avg clipped) /\
    hd NaN (t_var argsort t ddof) = Fin var /\
    hd NaN (t_std argsort t ddof) = Fin (sqrt var).
Proof.
  intros argsort rows q n t s ddof HS HA H P S HD lo hi clipped var.
  assert (FT := trimmed_finite _ _ _ _ _ HS HA H).
  assert (W := widx_clip argsort HS t rows n (t_k t) FT s P S). fold lo hi clipped in W.
  assert (NE := ft_nonempty _ _ _ _ FT).
  assert (HV : hd NaN (t_var argsort t ddof) = Fin var).
  { rewrite (var_real_fin argsort HS t rows n (t_k t) FT) by auto. destruct rows as [|r0 rows]; [congruence|].
    cbn [map hd] in *. unfold rcov, var. do 2 f_equal. rewrite codev_self. now apply sqdev_perm. }
  split; [|split]; auto.
  - rewrite (winsorized_mean_real argsort HS t rows n (t_k t) FT). destruct rows as [|r0 rows]; [congruence|].
    cbn [map hd] in *. f_equal. now apply avg_perm.
  - unfold t_std. destruct (t_var argsort t ddof) as [|v l] eqn:E; [discriminate|]. cbn [map hd] in *. rewrite HV.
    apply nsqrt_fin. unfold var. apply Rmult_le_pos.
    + apply sqdev_nonneg.
    + apply Rlt_le, Rinv_0_lt_compat, IZR_lt. lia.
Qed.

(** non-trivial case: the example of the docstring, trimming two of seven on each side *)
Example c45_example :
  let s := [1; 4; 5; 7; 9; 12; 20] in
  Permutation ex_row s /\ StronglySorted Rle s /\ (1 < Z.of_nat (7 - 2 * 2))%Z /\
  map (clip (nth 2 s 0) (nth (7 - 1 - 2) s 0)) ex_row = [9; 5; 5; 7; 5; 9; 9].
Proof.
  intros s. split.
  { unfold ex_row, s. symmetry. 
    apply Permutation_trans with [20; 1; 4; 5; 7; 9; 12].
    { apply (Permutation_app_comm [1; 4; 5; 7; 9; 12] [20]). }
    constructor. apply Permutation_trans with [4; 5; 7; 1; 9; 12].
    { exact (Permutation_app_tail [9; 12] (Permutation_app_comm [1] [4; 5; 7])). }
    do 4 apply perm_skip. apply perm_swap. }
  split. { unfold s. repeat (constructor; try (repeat constructor; lra)). }
  split; [lia|].
  unfold s, ex_row. cbn [nth Nat.sub map]. unfold clip.
  repeat (apply (f_equal2 (@cons R)); [unfold Rmax, Rmin; repeat destruct (Rle_dec _ _); lra|]). reflexivity.
Qed.

(** C46: the winsorized covariance is a covariance matrix *)
Definition quad (a : list R) (M : list (list R)) : R :=
  total (map (fun p => fst p * total (map (fun q => fst q * snd q) (combine a (snd p)))) (combine a M)).

Definition entry (M : list (list R)) (i j : nat) : R := nth j (nth i M []) 0.

Section Quad.
Context (idx : list nat) (HN : idx <> []).
Definition col (r : list R) : nat -> R := fun i => nth i r 0.
Definition comb (a : list R) (rows : list (list R)) : nat -> R :=
  fun i => total (map (fun p => fst p * nth i (snd p) 0) (combine a rows)).

Lemma comb_cov f : forall a rows,
  total (map (fun q => fst q * snd q) (combine a (map (fun s => Cv idx f (col s)) rows))) = Cv idx f (comb a rows).
Proof.
  induction a as [|x a IH]; intros rows.
  - simpl. unfold comb. simpl. now rewrite Cv_const_r.
  - destruct rows as [|r rows].
    + simpl. unfold comb. simpl. now rewrite Cv_const_r.
    + simpl. rewrite IH. transitivity (Cv idx f (fun i => x * col r i + 1 * comb a rows i)).
      * rewrite Cv_lin_r by auto. unfold col. ring.
      * apply Cv_ext; auto. intros i _. unfold comb, col. simpl. ring.
Qed.

Lemma quad_cov : forall a rows g b,
  total (map (fun p => fst p * total (map (fun q => fst q * snd q) (combine b (snd p))))
    (combine a (map (fun r => map (fun s => Cv idx (col r) (col s)) g) rows))) = Cv idx (comb a rows) (comb b g).
Proof.
  induction a as [|x a IH]; intros rows g b.
  - simpl. unfold comb at 1. simpl. now rewrite Cv_const_l.
  - destruct rows as [|r rows].
    + simpl. unfold comb at 1. simpl. now rewrite Cv_const_l.
    + simpl. rewrite IH, comb_cov. transitivity (Cv idx (fun i => x * col r i + 1 * comb a rows i) (comb b g)).
      * rewrite Cv_lin_l by auto. unfold col. ring.
      * apply Cv_ext; auto. intros i _. unfold comb at 2, col. simpl. unfold comb. ring.
Qed.
End Quad.

Lemma quad_scale c a M : quad a (map (map (fun x => c * x)) M) = c * quad a M.
Proof.
  unfold quad. generalize a at 2 4.
  assert (G : forall r, total (map (fun q => fst q * snd q) (combine a (map (fun x => c * x) r))) =
              c * total (map (fun q => fst q * snd q) (combine a r))).
  { induction a as [|x a IH]; intros r; simpl; [ring|]. destruct r; simpl; [ring|]. rewrite IH. ring. }
  intros b. revert M. induction b as [|y b IH]; intros M; simpl; [ring|]. destruct M as [|r M]; simpl; [ring|].
  rewrite IH, G. ring.
Qed.

Theorem c46_covariance_matrix :
  forall argsort rows q n t ddof, sorts argsort -> array n (fins rows) ->
    mk_trimmed argsort (fins rows) q = Ok t -> (ddof < Z.of_nat (n - 2 * t_k t))%Z ->
    exists M, t_cov argsort t ddof = map (map Fin) M /\
      length M = length rows /\
      (** symmetric *)
      (forall i j, (i < length rows)%nat -> (j < length rows)%nat -> entry M i j = entry M j i) /\
      (** positive semidefinite *)
      (forall a, 0 <= quad a M) /\
      (** the diagonal is the variance *)
      t_var argsort t ddof = map (fun i => Fin (entry M i i)) (seq 0 (length rows)) /\
      (** linear in each row: if row i is a * row j + b * row l then so are the covariances *)
      (forall i j l a b m, (i < length rows)%nat -> (j < length rows)%nat -> (l < length rows)%nat -> (m < length rows)%nat ->
        (forall c, (c < n)%nat -> nth c (nth i rows []) 0 = a * nth c (nth j rows []) 0 + b * nth c (nth l rows []) 0) ->
        entry M i m = a * entry M j m + b * entry M l m) /\
      (** variance of a difference *)
      (forall i j l, (i < length rows)%nat -> (j < length rows)%nat -> (l < length rows)%nat ->
        (forall c, (c < n)%nat -> nth c (nth i rows []) 0 = nth c (nth j rows []) 0 - nth c (nth l rows []) 0) ->
        entry M i i = entry M j j + entry M l l - 2 * entry M j l).
Proof.
  intros argsort rows q n t ddof HS HA H HD.
  assert (FT := trimmed_finite _ _ _ _ _ HS HA H).
  set (k := t_k t) in *. set (w := widx argsort t rows k).
  set (d := IZR (Z.of_nat (n - 2 * k) - ddof)).
  assert (Hd : 0 < d) by (apply IZR_lt; lia).
  assert (WN : w <> []) by (eapply widx_nonempty; eauto).
  assert (WB : forall i, In i w -> (i < n)%nat).
  { intros i Hi. apply (widx_kept argsort HS t rows n k FT) in Hi. eapply kept_bound; eauto. }
  set (F := fun r s => Cv w (col r) (col s)).
  set (M := map (fun r => map (fun s => F r s / d) rows) rows).
  assert (EM : forall i j, (i < length rows)%nat -> (j < length rows)%nat ->
    entry M i j = F (nth i rows []) (nth j rows []) / d).
  { intros i j Hi Hj. unfold entry, M.
    rewrite nth_indep with (l := map _ rows) (d' := (fun r => map (fun s => F r s / d) rows) []) by (now rewrite map_length).
    rewrite (map_nth (fun r => map (fun s => F r s / d) rows)).
    rewrite nth_indep with (d' := (fun s => F (nth i rows []) s / d) []) by (now rewrite map_length).
    exact (map_nth (fun s => F (nth i rows []) s / d) rows [] j). }
  assert (LIN : forall i j l a b m, (i < length rows)%nat -> (j < length rows)%nat -> (l < length rows)%nat -> (m < length rows)%nat ->
    (forall c, (c < n)%nat -> nth c (nth i rows []) 0 = a * nth c (nth j rows []) 0 + b * nth c (nth l rows []) 0) ->
    entry M i m = a * entry M j m + b * entry M l m).
  { intros i j l a b m Hi Hj Hl Hm HC. rewrite !EM by auto.
    replace (F (nth i rows []) (nth m rows [])) with
      (a * F (nth j rows []) (nth m rows []) + b * F (nth l rows []) (nth m rows [])); [field; lra|].
    unfold F. rewrite <- Cv_lin_l by auto. apply Cv_ext; auto. intros c Hc. symmetry. apply HC; auto. }
  assert (SYM : forall i j, (i < length rows)%nat -> (j < length rows)%nat -> entry M i j = entry M j i).
  { intros i j Hi Hj. rewrite !EM by auto. unfold F. now rewrite Cv_sym. }
  exists M. split; [|split; [|split; [|split; [|split; [|split]]]]]; auto.
  - rewrite (cov_matrix_fin argsort HS t rows n k FT) by auto.
    unfold M. rewrite map_map. apply map_ext. intros r. rewrite map_map. apply map_ext. intros s. reflexivity.
  - unfold M. now rewrite map_length.
  - intros a. replace M with (map (map (fun x => / d * x)) (map (fun r => map (fun s => F r s) rows) rows)).
    + rewrite quad_scale. apply Rmult_le_pos; [now apply Rlt_le, Rinv_0_lt_compat|].
      unfold quad, F. rewrite quad_cov by auto. apply Cv_nonneg.
    + rewrite map_map. apply map_ext. intros r. rewrite map_map. apply map_ext. intros s. unfold Rdiv. ring.
  - rewrite (var_real_fin argsort HS t rows n k FT) by auto.
    transitivity (map (fun r => Fin (rcov argsort t rows n k ddof r r)) (map (fun i => nth i rows []) (seq 0 (length rows)))).
    { now rewrite map_nth_seq. }
    rewrite map_map. apply map_ext_in. intros i Hi. apply in_seq in Hi.
    rewrite EM by lia. reflexivity.
  - intros i j l Hi Hj Hl HC.
    assert (HC' : forall c, (c < n)%nat -> nth c (nth i rows []) 0 = 1 * nth c (nth j rows []) 0 + -1 * nth c (nth l rows []) 0)
      by (intros c Hc; rewrite HC by auto; ring).
    rewrite (LIN i j l 1 (-1) i) by auto. rewrite (SYM j i), (SYM l i) by auto.
    rewrite (LIN i j l 1 (-1) j), (LIN i j l 1 (-1) l) by auto. rewrite (SYM l j) by auto. ring.
Qed.

(** with nothing trimmed: the ordinary mean and covariance *)
Theorem c46_untrimmed_is_the_ordinary_mean_and_covariance :
  forall argsort rows q n t ddof, sorts argsort -> array n (fins rows) ->
    mk_trimmed argsort (fins rows) q = Ok t -> t_k t = 0%nat -> (ddof < Z.of_nat n)%Z ->
    t_mean argsort t = map (fun r => Fin (avg r)) rows /\
    winsorized_mean argsort t = map (fun r => Fin (avg r)) rows /\
    t_cov argsort t ddof = map (fun r => map (fun s => Fin (codev r s / IZR (Z.of_nat n - ddof))) rows) rows.
Proof.
  intros argsort rows q n t ddof HS HA H HK HD.
  assert (FT := trimmed_finite _ _ _ _ _ HS HA H). rewrite HK in FT.
  assert (EK : t_kept argsort t = seq 0 n).
  { unfold t_kept, kept_index. rewrite HK. simpl. fold (t_size t). now rewrite (size_n t rows n 0 FT). }
  assert (EW : widx argsort t rows 0 = seq 0 n) by (unfold widx; simpl; now rewrite app_nil_r).
  assert (ER : forall r, In r rows -> rtake (seq 0 n) r = r).
  { intros r Hr. rewrite <- (ft_rect _ _ _ _ FT r Hr). apply map_nth_seq. }
  split; [|split].
  - rewrite (mean_real argsort HS t rows n 0 FT), EK. apply map_ext_in. intros r Hr. now rewrite ER.
  - rewrite (winsorized_mean_real argsort HS t rows n 0 FT), EW. apply map_ext_in. intros r Hr. now rewrite ER.
  - rewrite (cov_matrix_fin argsort HS t rows n 0 FT) by (rewrite Nat.sub_0_r; auto).
    apply map_ext_in. intros r Hr. apply map_ext_in. intros s Hs. unfold rcov. rewrite EW, !ER by auto.
    now rewrite Nat.sub_0_r.
Qed.

(** C47: one-dimensional data: order, shift and scale *)
Definition wins (k : nat) (s : list R) : list R :=
  middle k s ++ repeat (nth k s 0) k ++ repeat (nth (length s - 1 - k) s 0) k.

Lemma middle_rev {A} k (s : list A) : (2 * k <= length s)%nat -> middle k (rev s) = rev (middle k s).
Proof.
  intros H. unfold middle. rewrite rev_length, skipn_rev, firstn_rev. f_equal.
  rewrite firstn_length, Nat.min_l by lia. rewrite skipn_firstn_comm. f_equal.
  - lia.
  - f_equal. lia.
Qed.

Lemma nth_repeat_map (f : R -> R) x k : map f (repeat x k) = repeat (f x) k.
Proof. induction k; simpl; congruence. Qed.

Lemma wins_rev k s : (2 * k < length s)%nat -> Permutation (wins k (rev s)) (wins k s).
Proof.
  intros H. unfold wins. rewrite middle_rev by lia. rewrite rev_length.
  rewrite !rev_nth by lia.
  replace (length s - S k)%nat with (length s - 1 - k)%nat by lia.
  replace (length s - S (length s - 1 - k))%nat with k by lia.
  rewrite <- Permutation_rev. apply Permutation_app_head. apply Permutation_app_comm.
Qed.

Lemma wins_map f k s : (2 * k < length s)%nat -> wins k (map f s) = map f (wins k s).
Proof.
  intros H. unfold wins. rewrite middle_map, map_length, !map_app, !nth_repeat_map.
  rewrite !(nth_indep (map f s) 0 (f 0)) by (rewrite map_length; lia). now rewrite !map_nth.
Qed.

Lemma wins_ok argsort (HS : sorts argsort) t xs n k (FT : finite_trimmed t [xs] n k) s :
  Permutation xs s -> StronglySorted Rle s ->
  Permutation (rtake (t_kept argsort t) xs) (middle k s) /\
  Permutation (rtake (widx argsort t [xs] k) xs) (wins k s).
Proof.
  intros P S. assert (KM := kept_middle argsort HS t [xs] n k FT s P S). split; [exact KM|].
  assert (LX : length xs = n) by (apply (r0_length t [xs] n k FT)).
  assert (Ls := Permutation_length P).
  destruct (middle_ends s k S) as [A B]. { destruct FT; lia. }
  assert (E1 : nth (cmin argsort t [xs]) xs 0 = nth k s 0).
  { eapply least_unique; [|exact A]. eapply least_perm; [exact KM|]. apply (cmin_least argsort HS t [xs] n k FT). }
  assert (E2 : nth (cmax argsort t [xs]) xs 0 = nth (length s - 1 - k) s 0).
  { eapply greatest_unique; [|exact B]. eapply greatest_perm; [exact KM|]. apply (cmax_greatest argsort HS t [xs] n k FT). }
  unfold widx, wins. rewrite !rtake_app, !rtake_repeat, E1, E2. now rewrite KM.
Qed.

Lemma avg_affine a b l : l <> [] -> avg (map (fun x => a * x + b) l) = a * avg l + b.
Proof.
  intros H. assert (K := Av_lin l a b (fun x => x) (fun _ => 1)).
  transitivity (Av l (fun x => a * x + b * 1)).
  - unfold Av. f_equal. apply map_ext. intros; ring.
  - rewrite K by auto. rewrite Av_const by auto. unfold Av. rewrite map_id. ring.
Qed.
Lemma sqdev_affine a b l : l <> [] -> sqdev (map (fun x => a * x + b) l) = a ^ 2 * sqdev l.
Proof.
  intros H. unfold sqdev. rewrite avg_affine by auto. rewrite map_map.
  rewrite <- (Sm_scale l (a ^ 2) (fun x => (x - avg l) ^ 2) : _ = _ * total _). unfold Sm. f_equal. apply map_ext. intros; ring.
Qed.

Theorem c47_order_shift_and_scale :
  forall as1 as2 xs ys q n t u a b ddof, sorts as1 -> sorts as2 -> array n (fins [xs]) ->
    Permutation ys (map (fun x => a * x + b) xs) ->
    mk_trimmed as1 (fins [xs]) q = Ok t -> mk_trimmed as2 (fins [ys]) q = Ok u ->
    (ddof < Z.of_nat (n - 2 * t_k t))%Z ->
    exists m w v,
      t_mean as1 t = [Fin m] /\ t_mean as2 u = [Fin (a * m + b)] /\
      winsorized_mean as1 t = [Fin w] /\ winsorized_mean as2 u = [Fin (a * w + b)] /\
      t_var as1 t ddof = [Fin v] /\ t_var as2 u ddof = [Fin (a ^ 2 * v)] /\
      t_len as1 t = t_len as2 u.
Proof.
  intros as1 as2 xs ys q n t u a b ddof S1 S2 HA P Ht Hu HD.
  assert (LX : length xs = n).
  { destruct HA as (_ & HR & _). rewrite <- (HR (map Fin xs)); [now rewrite map_length|now left]. }
  assert (LY : length ys = n) by (rewrite (Permutation_length P), map_length; auto).
  assert (HB : array n (fins [ys])).
  { destruct HA as (_ & _ & H0 & H1). repeat split; auto; [discriminate|].
    intros r [<-|[]]. now rewrite map_length. }
  assert (EK : t_k u = t_k t).
  { apply mk_trimmed_inv in Ht as (_ & _ & _ & k1 & A1 & B1). apply mk_trimmed_inv in Hu as (_ & _ & _ & k2 & A2 & B2).
    unfold sample_size in *. cbn [fins map hd] in *. rewrite map_length, LX in A1. rewrite map_length, LY in A2. congruence. }
  assert (FX := trimmed_finite _ _ _ _ _ S1 HA Ht). assert (FY := trimmed_finite _ _ _ _ _ S2 HB Hu).
  rewrite EK in FY. set (k := t_k t) in *.
  assert (Hk : (2 * k < n)%nat) by (destruct FX; auto).
  destruct (sorted_real xs) as (s & Ps & Ss).
  assert (Ls := Permutation_length Ps).
  set (f := fun x => a * x + b) in *.
  assert (G : exists s', Permutation ys s' /\ StronglySorted Rle s' /\
     Permutation (middle k s') (map f (middle k s)) /\ Permutation (wins k s') (map f (wins k s))).
  { destruct (Rle_or_lt 0 a) as [Ha|Ha].
    - exists (map f s). split; [|split; [|split]].
      + rewrite P. now apply Permutation_map.
      + eapply SSorted_map; [|exact Ss]. intros x y _ _ Hxy. unfold f. nra.
      + now rewrite middle_map.
      + rewrite wins_map by lia. reflexivity.
    - exists (rev (map f s)). split; [|split; [|split]].
      + rewrite P, <- Permutation_rev. now apply Permutation_map.
      + assert (K : StronglySorted Rge (map f s)).
        { eapply SSorted_map; [|exact Ss]. intros x y _ _ Hxy. unfold f. apply Rle_ge. nra. }
        clear - K. induction K as [|y l K IH F]; [constructor|]. simpl.
        assert (G : forall l m, StronglySorted Rle l -> StronglySorted Rle m -> (forall x y, In x l -> In y m -> x <= y) ->
                    StronglySorted Rle (l ++ m)).
        { clear. induction l as [|x l IH]; simpl; intros m A B C; auto. inversion A as [|? ? A1 A2]; subst. constructor.
          - apply IH; auto.
          - apply Forall_forall. intros z Hz. apply in_app_or in Hz as [Hz|Hz]; [|auto]. rewrite Forall_forall in A2. auto. }
        apply G; auto. { repeat constructor. }
        intros x z Hx [<-|[]]. apply in_rev in Hx. rewrite Forall_forall in F. apply Rge_le. auto.
      + rewrite middle_rev by (rewrite map_length; lia). rewrite <- Permutation_rev. now rewrite middle_map.
      + rewrite wins_rev by (rewrite map_length; lia). rewrite wins_map by lia. reflexivity. }
  destruct G as (s' & Ps' & Ss' & GM & GW).
  destruct (wins_ok as1 S1 t xs n k FX s Ps Ss) as [X1 X2].
  destruct (wins_ok as2 S2 u ys n k FY s' Ps' Ss') as [Y1 Y2].
  set (v := rcov as1 t [xs] n k ddof xs xs).
  exists (avg (rtake (t_kept as1 t) xs)), (avg (rtake (widx as1 t [xs] k) xs)), v.
  rewrite (mean_real as1 S1 t [xs] n k FX), (mean_real as2 S2 u [ys] n k FY).
  rewrite (winsorized_mean_real as1 S1 t [xs] n k FX), (winsorized_mean_real as2 S2 u [ys] n k FY).
  rewrite (var_real_fin as1 S1 t [xs] n k FX), (var_real_fin as2 S2 u [ys] n k FY) by auto.
  rewrite (len_real as1 S1 t [xs] n k FX), (len_real as2 S2 u [ys] n k FY).
  cbn [map].
  assert (N1 : middle k s <> []).
  { intros E. assert (L := middle_length k s ltac:(lia)). rewrite E in L. simpl in L. lia. }
  assert (N2 : wins k s <> []) by (unfold wins; destruct (middle k s); [congruence|discriminate]).
  split; [reflexivity|]. split.
  { do 2 f_equal. rewrite (avg_perm _ _ Y1), (avg_perm _ _ X1), (avg_perm _ _ GM). now apply avg_affine. }
  split; [reflexivity|]. split.
  { do 2 f_equal. rewrite (avg_perm _ _ Y2), (avg_perm _ _ X2), (avg_perm _ _ GW). now apply avg_affine. }
  split; [reflexivity|]. split; [|reflexivity].
  do 2 f_equal. unfold v, rcov. unfold Rdiv. rewrite <- Rmult_assoc. f_equal.
  rewrite !codev_self.
  rewrite (sqdev_perm _ _ Y2), (sqdev_perm _ _ X2), (sqdev_perm _ _ GW). now apply sqdev_affine.
Qed.

(** every array of seven samples can be trimmed by 2/7: the hypotheses of C44-C47 hold for
    non-trivial arrays, with two samples trimmed on each side and three left *)
Lemma seven_ok (rows : list (list R)) : rows <> [] -> (forall r, In r rows -> length r = 7%nat) ->
  array 7 (fins rows) /\ exists t, mk_trimmed argsort_ref (fins rows) (flit 2 7) = Ok t /\ t_k t = 2%nat.
Proof.
  intros HN HR.
  assert (A : array 7 (fins rows)).
  { split. { intros E. apply HN. unfold fins in E. now apply map_eq_nil in E. }
    split. { intros r Hr. unfold fins in Hr. apply in_map_iff in Hr as (r' & <- & Hr). rewrite map_length. auto. }
    split; [lia|]. vm_compute. discriminate. }
  split; auto.
  assert (E : floor_mul (flit 2 7) 7 = Ok 2%Z) by (vm_compute; reflexivity).
  assert (K : (fltb (flit 2 7) f0 || fgeb (flit 2 7) fhalf)%bool = false) by (vm_compute; reflexivity).
  assert (Q : is_finite (flit 2 7) = true /\ 0 <= B2R (flit 2 7) < 1 / 2) by (apply (quantile_checks _ 2 7); auto; vm_compute; discriminate).
  assert (Q' := Q). apply (c43_accepts_exactly_quantiles_below_half argsort_ref _ _ _ argsort_ref_sorts A) in Q' as [t Ht].
  exists t. split; auto. apply mk_trimmed_inv in Ht as (_ & _ & _ & k & E' & ->).
  replace (sample_size (fins rows)) with 7%nat in E'.
  - change (Z.of_nat 7) with 7%Z in E'. rewrite E in E'. now injection E' as <-.
  - unfold sample_size, fins. destruct rows as [|r rows]; [congruence|]. cbn [map hd]. rewrite map_length. symmetry. apply HR. now left.
Qed.

Example c46_example : let rows := [ex_row; rev ex_row; map (fun x => 2 * x) ex_row] in
  array 7 (fins rows) /\ exists t, mk_trimmed argsort_ref (fins rows) (flit 2 7) = Ok t /\ (1 < Z.of_nat (7 - 2 * t_k t))%Z.
Proof.
  intros rows. destruct (seven_ok rows) as (A & t & H & K); [discriminate|intros r [<-|[<-|[<-|[]]]]; reflexivity|].
  split; auto. exists t. rewrite K. split; auto. lia.
Qed.

Example c47_example : let ys := map (fun x => -2 * x + 3) ex_row in
  exists t u, array 7 (fins [ex_row]) /\ mk_trimmed argsort_ref (fins [ex_row]) (flit 2 7) = Ok t /\
    mk_trimmed argsort_ref (fins [rev ys]) (flit 2 7) = Ok u /\ Permutation (rev ys) ys /\ (1 < Z.of_nat (7 - 2 * t_k t))%Z.
Proof.
  intros ys. destruct (seven_ok [ex_row]) as (A & t & H & K); [discriminate|intros r [<-|[]]; reflexivity|].
  destruct (seven_ok [rev ys]) as (_ & u & H' & _); [discriminate|intros r [<-|[]]; reflexivity|].
  exists t, u. rewrite K. split; [exact A|]. split; [exact H|]. split; [exact H'|]. split; [|lia].
  symmetry. apply Permutation_rev.
Qed.

Print Assumptions c43_accepts_exactly_quantiles_below_half.
Print Assumptions c43_trims_floor_of_quantile_times_n.
Print Assumptions c43_length_assertion_never_fires.
Print Assumptions c43_empty_arrays_are_rejected.
Print Assumptions c43_same_count_as_the_design.
Print Assumptions c44_keeps_the_middle_order_statistics.
Print Assumptions c44_ties_do_not_matter.
Print Assumptions c45_winsorized_moments.
Print Assumptions c46_covariance_matrix.
Print Assumptions c46_untrimmed_is_the_ordinary_mean_and_covariance.
Print Assumptions c47_order_shift_and_scale.
