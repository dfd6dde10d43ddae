(** C48, C49: the CUPED adjustment. *)
From Coq Require Import ZArith Reals Lra Lia List Bool Permutation Sorting.Sorted.
From Flocq Require Import Core BinarySingleNaN.
Require Import Verif.Base Verif.Num Verif.NumOrd Verif.F64 Verif.ListLib
  Verif.Trimmed_Model Verif.Trimmed_Spec Verif.Moments Verif.Trimmed_Proofs Verif.Trimmed_Real Verif.Trimmed_Props
  Verif.Cuped_Model.
Import ListNotations.
Open Scope R_scope.

Lemma nmean_fin l : l <> [] -> nmean (map Fin l) = Fin (avg l).
Proof.
  intros H. unfold nmean. rewrite nsum_Fin, map_length. apply ndiv_fin. apply not_0_INR. destruct l; simpl; [congruence|lia].
Qed.

Lemma combine_length_eq {A B} (l : list A) (m : list B) : length l = length m -> length (combine l m) = length l.
Proof. intros H. rewrite combine_length. lia. Qed.

Lemma resid_fin l c : map (fun x => nsub x (Fin c)) (map Fin l) = map Fin (map (fun x => x - c) l).
Proof. rewrite !map_map. apply map_ext. intros. reflexivity. Qed.

Lemma codev_unfold l m : codev l m =
  total (map (fun p => fst p * snd p) (combine (map (fun x => x - avg l) l) (map (fun x => x - avg m) m))).
Proof.
  unfold codev. f_equal. generalize (avg l) (avg m). intros a b. revert m.
  induction l as [|x l IH]; intros [|y m]; simpl; auto. now rewrite IH.
Qed.

Lemma np_cov_fin a b : a <> [] -> b <> [] -> np_cov (map Fin a) (map Fin b) =
  nmul (Fin (codev a b)) (ndiv (Fin 1) (Fin (IZR (Z.max 0 (Z.of_nat (length a) - 1))))).
Proof.
  intros Ha Hb. unfold np_cov. rewrite !nmean_fin, !resid_fin, ndot_fin, map_length by auto.
  now rewrite codev_unfold.
Qed.

(** pairing two lists of the same length: functions over the positions *)
Lemma as_functions (m c : list R) : length m = length c ->
  m = map (fun i => nth i m 0) (seq 0 (length m)) /\ c = map (fun i => nth i c 0) (seq 0 (length m)).
Proof. intros H. split; [|rewrite H]; now rewrite Assign_Proofs.map_nth_seq. Qed.

Lemma zip_fin f g (m c : list R) : (forall x y, f (Fin x) (Fin y) = Fin (g x y)) ->
  zip_with f (map Fin m) (map Fin c) = map Fin (zip_with g m c).
Proof.
  intros H. unfold zip_with. revert c. induction m as [|x m IH]; intros [|y c]; simpl; auto. now rewrite IH, H.
Qed.
Lemma zip_const {A B D} (f : A -> B -> D) z m c : (forall x y, f x y = z) -> length m = length c ->
  zip_with f m c = repeat z (length m).
Proof.
  intros H. unfold zip_with. revert c. induction m as [|x m IH]; intros [|y c]; simpl; auto; try lia.
  intros E. rewrite IH by lia. now rewrite H.
Qed.
Lemma zip_length {A B D} (f : A -> B -> D) m c : length m = length c -> length (zip_with f m c) = length m.
Proof. intros H. unfold zip_with. rewrite map_length. now apply combine_length_eq. Qed.

(** the ordinary CUPED adjustment, as real numbers *)
Definition adjusted (m c : list R) : list R :=
  zip_with (fun x y => x - codev m c / codev c c * (y - avg c)) m c.

Lemma first_adjustment m c : length m = length c -> (2 <= length m)%nat -> codev c c <> 0 ->
  zip_with (fun x y => nsub x (nmul (ndiv (np_cov (map Fin m) (map Fin c)) (np_cov (map Fin c) (map Fin c))) (nsub y (nmean (map Fin c)))))
    (map Fin m) (map Fin c) = map Fin (adjusted m c).
Proof.
  intros L H2 HC.
  assert (Nm : m <> []) by (intros ->; simpl in H2; lia). assert (Nc : c <> []) by (intros ->; simpl in L; lia).
  rewrite !np_cov_fin, nmean_fin by auto. rewrite <- L.
  assert (HF : IZR (Z.max 0 (Z.of_nat (length m) - 1)) <> 0) by (apply not_0_IZR; lia).
  set (f := IZR (Z.max 0 (Z.of_nat (length m) - 1))) in *.
  rewrite !(ndiv_fin 1 f HF). cbn [nmul].
  rewrite ndiv_fin. 2: { intros E. apply HC. apply Rmult_integral in E as [E|E]; auto. exfalso. revert E. apply Rmult_integral_contrapositive_currified; [lra|now apply Rinv_neq_0_compat]. }
  apply zip_fin. intros x y. cbn [nsub nneg nadd nmul]. f_equal. unfold Rminus. field. auto.
Qed.

Lemma first_adjustment_nan m c : length m = length c -> (1 <= length m)%nat ->
  (length m = 1%nat \/ codev c c = 0) ->
  ndiv (np_cov (map Fin m) (map Fin c)) (np_cov (map Fin c) (map Fin c)) = NaN.
Proof.
  intros L H1 HC.
  assert (Nm : m <> []) by (intros ->; simpl in H1; lia). assert (Nc : c <> []) by (intros ->; simpl in L; lia).
  rewrite !np_cov_fin by auto. rewrite <- L.
  assert (CS : codev c c = 0 -> codev m c = 0).
  { intros E. destruct (as_functions m c L) as [Em Ec].
    assert (NS : seq 0 (length m) <> []) by (clear -Nm; destruct m; [congruence|discriminate]).
    assert (K := Cv_cauchy (seq 0 (length m)) (fun i => nth i m 0) (fun i => nth i c 0)).
    unfold Cv in K. rewrite <- Em, <- Ec in K. rewrite E in K. nra. }
  destruct (Nat.eq_dec (length m) 1) as [E1|E1].
  - rewrite E1. cbn [Z.of_nat Z.max Z.compare]. replace (Z.max 0 (Z.of_nat 1 - 1)) with 0%Z by reflexivity.
    assert (Z0 : codev c c = 0).
    { destruct c as [|x [|y c]]; simpl in *; try lia. unfold codev, avg. simpl. rewrite Rplus_0_r. field. }
    rewrite Z0, (CS Z0). simpl. rewrite Req_bool_true by reflexivity. unfold ninf_of. rewrite Rlt_bool_true by lra.
    cbn [nmul]. unfold ninf_of. rewrite !Rlt_bool_false by lra. reflexivity.
  - destruct HC as [HC|HC]; [lia|]. rewrite HC, (CS HC).
    rewrite ndiv_fin by (apply not_0_IZR; lia). cbn [nmul]. rewrite !Rmult_0_l. simpl.
    rewrite Req_bool_true by reflexivity. unfold ninf_of. now rewrite !Rlt_bool_false by lra.
Qed.

(** trimming fails only for the constructor's reasons: here, a helper for three rows *)
Lemma array_of_rows {A} n (rows : list (list A)) : rows <> [] -> (forall r, In r rows -> length r = n) ->
  (0 < n)%nat -> (Z.of_nat n <= 2 ^ 53)%Z -> array n rows.
Proof. intros; split; auto. Qed.

(** sample sizes and quantiles for which a TrimmedArray can be built *)
Definition usable (n : nat) (q : f64) : Prop :=
  (0 < n)%nat /\ (Z.of_nat n <= 2 ^ 53)%Z /\ is_finite q = true /\ 0 <= B2R q < 1 / 2.
(** the number of samples trimmed on each side *)
Definition trim_each (n : nat) (q : f64) : Z := Zfloor (rnd (B2R q * INR n)).

Lemma mk_trimmed_usable argsort rows q n : sorts argsort -> usable n q -> rows <> [] ->
  (forall r, In r rows -> length r = n) ->
  exists t, mk_trimmed argsort rows q = Ok t /\ t_rows t = rows /\ Z.of_nat (t_k t) = trim_each n q /\ (2 * t_k t < n)%nat.
Proof.
  intros HS (H0 & HB & Fq & Hq) HN HR.
  assert (A : array n rows) by (split; auto).
  destruct (mk_trimmed_succeeds argsort rows q n HS HN HR H0 HB Fq Hq) as (t & k & Ht & ER & _).
  destruct (c43_trims_floor_of_quantile_times_n argsort rows q n t HS A Ht) as (E & H2 & _).
  exists t. auto.
Qed.

(** C48: nothing trimmed *)
Theorem c48_without_trimming :
  forall argsort m c q n, sorts argsort -> usable n q -> trim_each n q = 0%Z ->
    length m = n -> length c = n -> (2 <= n)%nat -> sqdev c <> 0 ->
    exists y, apply_cuped_adjustment argsort (map Fin m) (map Fin c) q = Ok (map Fin y) /\
      length y = n /\ avg y = avg m /\ codev y c = 0 /\
      sqdev y * sqdev c = sqdev m * sqdev c - codev m c ^ 2 /\ sqdev y <= sqdev m /\
      (sqdev m <> 0 ->
       let corr := codev m c / sqrt (sqdev m * sqdev c) in sqdev y = sqdev m * (1 - corr ^ 2)).
Proof.
  intros argsort m c q n HS HU HT Lm Lc H2 HC.
  assert (CC : codev c c <> 0) by (now rewrite codev_self).
  exists (adjusted m c).
  assert (EQ : apply_cuped_adjustment argsort (map Fin m) (map Fin c) q = Ok (map Fin (adjusted m c))).
  { unfold apply_cuped_adjustment. rewrite !map_length, Lm, Lc, Nat.eqb_refl. cbn [negb raise_if bind].
    rewrite first_adjustment by (try congruence; lia).
    destruct (mk_trimmed_usable argsort [map Fin (adjusted m c); map Fin m; map Fin c] q n) as (t & Ht & _ & EK & _); auto.
    { discriminate. }
    { intros r [<-|[<-|[<-|[]]]]; rewrite map_length; auto. unfold adjusted. rewrite zip_length; congruence. }
    rewrite Ht. cbn [bind]. rewrite HT in EK. replace (t_k t) with 0%nat by lia. reflexivity. }
  split; [exact EQ|].
  set (idx := seq 0 n). assert (NI : idx <> []) by (unfold idx; destruct n; [lia|discriminate]).
  set (fm := fun i => nth i m 0). set (fc := fun i => nth i c 0).
  assert (Em : m = map fm idx) by (unfold idx; rewrite <- Lm; symmetry; apply Assign_Proofs.map_nth_seq).
  assert (Ec : c = map fc idx) by (unfold idx; rewrite <- Lc; symmetry; apply Assign_Proofs.map_nth_seq).
  set (th := codev m c / codev c c).
  set (fy := fun i => 1 * fm i + (- th) * (1 * fc i + (- 1) * avg c)).
  assert (Ey : adjusted m c = map fy idx).
  { unfold adjusted, zip_with. fold th.
    transitivity (map (fun p => fst p - th * (snd p - avg c)) (combine (map fm idx) (map fc idx))).
    { now rewrite <- Em, <- Ec. }
    rewrite combine_map2, map_map. apply map_ext. intros i. cbn [fst snd]. unfold fy. ring. }
  assert (CM : Cv idx fm fc = codev m c) by (unfold Cv; now rewrite <- Em, <- Ec).
  assert (CV : Cv idx fc fc = codev c c) by (unfold Cv; now rewrite <- Ec).
  assert (MM : Cv idx fm fm = codev m m) by (unfold Cv; now rewrite <- Em).
  assert (AC : Av idx fc = avg c) by (unfold Av; now rewrite <- Ec).
  assert (AM : Av idx fm = avg m) by (unfold Av; now rewrite <- Em).
  assert (Hyc : forall g, Cv idx fy g = Cv idx fm g - th * Cv idx fc g).
  { intros g. unfold fy. rewrite Cv_lin_l by auto. rewrite (Cv_lin_l idx 1 (-1) fc (fun _ => avg c)), Cv_const_l by auto. ring. }
  assert (Hyy : Cv idx fy fy = codev m m - codev m c ^ 2 / codev c c).
  { rewrite Hyc. rewrite (Cv_sym idx fm fy), (Cv_sym idx fc fy), !Hyc, (Cv_sym idx fc fm), CM, CV, MM. unfold th. field. auto. }
  assert (SY : sqdev (adjusted m c) = codev m m - codev m c ^ 2 / codev c c).
  { rewrite Ey, <- Cv_sqdev. exact Hyy. }
  assert (PC : 0 < sqdev c) by (generalize (sqdev_nonneg c); lra).
  split; [unfold adjusted; rewrite zip_length; congruence|].
  split. { rewrite Ey. fold (Av idx fy). unfold fy. rewrite Av_lin by auto. rewrite (Av_lin idx 1 (-1) fc (fun _ => avg c)), Av_const, AC, AM by auto. ring. }
  split. { rewrite Ey. transitivity (Cv idx fy fc); [unfold Cv; now rewrite <- Ec|]. rewrite Hyc, CM, CV. unfold th. field. auto. }
  split. { rewrite SY, <- !codev_self. field. auto. }
  split. { rewrite SY, <- (codev_self m). rewrite codev_self with (l := c).
    assert (0 <= codev m c ^ 2 / sqdev c); [|lra]. apply Rmult_le_pos; [apply pow2_ge_0|]. now apply Rlt_le, Rinv_0_lt_compat. }
  intros HM corr. assert (PM : 0 < sqdev m) by (generalize (sqdev_nonneg m); lra).
  assert (C2 : corr ^ 2 = codev m c ^ 2 / (sqdev m * sqdev c)).
  { unfold corr, Rdiv. rewrite Rpow_mult_distr, pow_inv.
    f_equal. f_equal. apply pow2_sqrt. nra. }
  rewrite C2, SY, codev_self, (codev_self c). field. split; lra.
Qed.

(** a constant covariate, or a single sample, turns every value into NaN *)
Theorem c48_constant_covariate_gives_nan :
  forall argsort m c q n, sorts argsort -> usable n q -> trim_each n q = 0%Z ->
    length m = n -> length c = n -> (n = 1%nat \/ sqdev c = 0) ->
    apply_cuped_adjustment argsort (map Fin m) (map Fin c) q = Ok (repeat NaN n).
Proof.
  intros argsort m c q n HS HU HT Lm Lc HC.
  unfold apply_cuped_adjustment. rewrite !map_length, Lm, Lc, Nat.eqb_refl. cbn [negb raise_if bind].
  rewrite first_adjustment_nan.
  2: congruence. 2: { destruct HU. lia. } 2: { rewrite codev_self. rewrite Lm. exact HC. }
  rewrite (zip_const _ NaN).
  2: { intros x y. cbn [nmul nsub nneg]. destruct x; reflexivity. }
  2: { rewrite !map_length. congruence. }
  rewrite map_length, Lm.
  destruct (mk_trimmed_usable argsort [repeat NaN n; map Fin m; map Fin c] q n) as (t & Ht & _ & EK & _); auto.
  { discriminate. }
  { intros r [<-|[<-|[<-|[]]]]; rewrite ?repeat_length, ?map_length; auto. }
  rewrite Ht. cbn [bind]. rewrite HT in EK. replace (t_k t) with 0%nat by lia. reflexivity.
Qed.

Lemma usable_0 n : (0 < n)%nat -> (Z.of_nat n <= 2 ^ 53)%Z -> usable n f0 /\ trim_each n f0 = 0%Z.
Proof.
  intros H0 HB. destruct f0_val as [F V]. split.
  - split; auto. split; auto. split; auto. rewrite V. lra.
  - unfold trim_each. rewrite V, Rmult_0_l, rnd_0. apply (Zfloor_IZR 0).
Qed.

(** so "the mean of the metric is unchanged" fails: a constant covariate *)
Theorem c48_mean_is_unchanged_refuted :
  exists argsort m c q, sorts argsort /\ usable (length m) q /\ length c = length m /\
    apply_cuped_adjustment argsort (map Fin m) (map Fin c) q = Ok [NaN; NaN; NaN] /\ m = [1; 2; 3].
Proof.
  exists argsort_ref, [1; 2; 3], [5; 5; 5], f0.
  destruct (usable_0 3) as [U T]; [lia|vm_compute; discriminate|].
  split; [apply argsort_ref_sorts|]. split; [exact U|]. split; [reflexivity|]. split; [|reflexivity].
  apply (c48_constant_covariate_gives_nan argsort_ref [1; 2; 3] [5; 5; 5] f0 3 argsort_ref_sorts U T); auto.
  right. unfold sqdev, avg. simpl. field.
Qed.

Example c48_example : usable 3 f0 /\ trim_each 3 f0 = 0%Z /\ sqdev [1; 2; 4] <> 0.
Proof.
  destruct (usable_0 3) as [U T]; [lia|vm_compute; discriminate|]. repeat split; try apply U; auto.
  unfold sqdev, avg. simpl. lra.
Qed.

(** *** With trimming *)

Lemma arg_nan l : argmin (NaN :: l) = 0%nat /\ argmax (NaN :: l) = 0%nat.
Proof. destruct l; now split. Qed.

Lemma take_repeat idx (x : num) n : (forall i, In i idx -> (i < n)%nat) -> take idx (repeat x n) = repeat x (length idx).
Proof.
  intros H. unfold take. induction idx as [|i idx IH]; simpl; auto. rewrite IH by (intros; apply H; now right).
  f_equal. assert (L : (i < n)%nat) by (apply H; now left). clear -L. revert i L.
  induction n; intros [|i] L; simpl; auto; try lia. apply IHn. lia.
Qed.

(** a constant row has no covariance with any finite row when the trimming order is undefined *)
Lemma cov_const argsort t r v n k : (0 < length r)%nat -> n = (length r + 2 * k)%nat ->
  argmin (hd [] (values_trimmed argsort t)) = 0%nat -> argmax (hd [] (values_trimmed argsort t)) = 0%nat ->
  t_len argsort t = length r -> t_size t = n -> t_k t = k ->
  cov_of argsort t 0 (map Fin r) (map Fin (repeat v (length r))) = Fin 0.
Proof.
  intros HL Hn A1 A2 HT HZ HK.
  assert (HN : INR n <> 0) by (apply not_0_INR; lia).
  assert (MV : forall l, (0 < length l)%nat -> min_value argsort t (map Fin l) = Fin (nth 0 l 0) /\ max_value argsort t (map Fin l) = Fin (nth 0 l 0)).
  { intros l Hl. unfold min_value, max_value. rewrite A1, A2. destruct l; [simpl in Hl; lia|]. now split. }
  assert (WF : forall l, (0 < length l)%nat -> exists w, wmean_of argsort t (map Fin l) = Fin w /\
     w = (total l + INR k * (nth 0 l 0 + nth 0 l 0)) / INR n).
  { intros l Hl. unfold wmean_of. destruct (MV l Hl) as [-> ->]. rewrite nsum_Fin, HZ, HK.
    cbn [nadd nmul]. rewrite ndiv_fin by auto. eauto. }
  set (s := repeat v (length r)).
  assert (Ls : length s = length r) by apply repeat_length.
  assert (Hs : (0 < length s)%nat) by lia.
  assert (S0 : nth 0 s 0 = v) by (unfold s; destruct (length r); [lia|reflexivity]).
  assert (TS : total s = INR (length r) * v).
  { unfold s. clear. induction (length r) as [|j IH]; [simpl; lra|]. change (v + total (repeat v j) = INR (S j) * v).
    rewrite IH, S_INR. ring. }
  destruct (WF r HL) as (wr & Er & _). destruct (WF s Hs) as (ws & Es & Hw).
  assert (EW : ws = v).
  { rewrite Hw, TS, S0. rewrite Hn, plus_INR, mult_INR. simpl (INR 2). field. rewrite Hn, plus_INR, mult_INR in HN. simpl (INR 2) in HN. exact HN. }
  unfold cov_of. rewrite Er, Es, EW. destruct (MV r HL) as [-> ->]. destruct (MV s Hs) as [-> ->]. rewrite S0, HK, HT.
  rewrite !resid_fin, ndot_fin. cbn [nsub nneg nadd nmul].
  assert (D0 : total (map (fun p => fst p * snd p) (combine (map (fun x => x - wr) r) (map (fun x => x - v) s))) = 0).
  { unfold s. clear. induction r as [|x r IH]; [reflexivity|]. cbn [length repeat map combine total fold_right fst snd].
    change (fold_right Rplus 0 (map (fun p : R * R => fst p * snd p) (combine (map (fun z : R => z - wr) r) (map (fun z : R => z - v) (repeat v (length r)))))) with
      (total (map (fun p : R * R => fst p * snd p) (combine (map (fun z : R => z - wr) r) (map (fun z : R => z - v) (repeat v (length r)))))).
    rewrite IH. ring. }
  rewrite D0. rewrite ndiv_fin by (apply not_0_IZR; lia). f_equal.
  replace (v + - v) with 0 by ring. rewrite !Rmult_0_r, !Rplus_0_r, Rmult_0_r. unfold Rdiv. ring.
Qed.

Lemma sqdev_zero_repeat c : c <> [] -> sqdev c = 0 -> c = repeat (avg c) (length c).
Proof.
  intros N H. assert (K : forall x, In x c -> x = avg c).
  { intros x Hx. assert (Z := Cv_zero_const c (fun y => y)). rewrite Cv_sqdev, map_id in Z. specialize (Z H x Hx).
    unfold Av in Z. now rewrite map_id in Z. }
  clear H N. generalize dependent (avg c). intros a. induction c as [|x c IH]; simpl; intros K; auto.
  f_equal; [apply K; now left|]. apply IH. intros; apply K; now right.
Qed.

(** the adjustment coefficient used after trimming is a number, or undefined *)
Lemma trimmed_theta_cases argsort m c q n t : sorts argsort -> usable n q -> length m = n -> length c = n ->
  let first := zip_with (fun x y => nsub x (nmul (ndiv (np_cov (map Fin m) (map Fin c)) (np_cov (map Fin c) (map Fin c))) (nsub y (nmean (map Fin c)))))
    (map Fin m) (map Fin c) in
  mk_trimmed argsort [first; map Fin m; map Fin c] q = Ok t -> (0 < t_k t)%nat ->
  let cov := t_cov argsort t 0 in
  let theta := ndiv (mentry cov 1 2) (mentry cov 2 2) in
  theta = NaN \/ exists th, theta = Fin th.
Proof.
  intros HS HU Lm Lc first Ht HK cov theta.
  assert (N2 : (2 <= n)%nat).
  { destruct (mk_trimmed_usable argsort [map Fin m] q n HS HU) as (t' & Ht' & _ & EK & H2); [discriminate| |].
    { intros r [<-|[]]. now rewrite map_length. }
    destruct (mk_trimmed_usable argsort [first; map Fin m; map Fin c] q n HS HU) as (t2 & Ht2 & _ & EK2 & H22); [discriminate| |].
    { intros r [<-|[<-|[<-|[]]]]; rewrite ?map_length; auto. unfold first. rewrite zip_length; rewrite !map_length; congruence. }
    assert (t = t2) by congruence. subst. lia. }
  assert (LF : length first = n) by (unfold first; rewrite zip_length; rewrite !map_length; congruence).
  assert (HR : forall r, In r [first; map Fin m; map Fin c] -> length r = n).
  { intros r [<-|[<-|[<-|[]]]]; rewrite ?map_length; auto. }
  destruct (mk_trimmed_usable argsort [first; map Fin m; map Fin c] q n HS HU) as (t2 & Ht2 & ER & EK2 & H22); [discriminate|exact HR|].
  assert (t2 = t) by congruence. subst t2. clear Ht2.
  destruct (Req_dec (codev c c) 0) as [Z|Z].
  - (* constant covariate *)
    left.
    assert (NF : first = repeat NaN n).
    { unfold first. rewrite first_adjustment_nan by (try lia; try congruence; auto).
      rewrite (zip_const _ NaN); [now rewrite map_length, Lm| |rewrite !map_length; congruence].
      intros x y. destruct x; reflexivity. }
    assert (EC : c = repeat (avg c) n).
    { rewrite <- Lc. apply sqdev_zero_repeat; [|now rewrite <- codev_self]. intros ->. simpl in Lc. lia. }
    set (kept := t_kept argsort t). 
    assert (SZ : t_size t = n) by (unfold t_size, sample_size; rewrite ER; cbn [hd]; exact LF).
    assert (KL : length kept = (n - 2 * t_k t)%nat).
    { unfold kept, t_kept. rewrite kept_length; auto; fold (t_size t); rewrite SZ; auto. lia. }
    assert (KB : forall i, In i kept -> (i < n)%nat).
    { intros i Hi. unfold kept, t_kept in Hi. apply (kept_lt argsort HS) in Hi. fold (t_size t) in Hi. now rewrite SZ in Hi. }
    assert (VT : values_trimmed argsort t = [repeat NaN (length kept); map Fin (rtake kept m); map Fin (repeat (avg c) (length (rtake kept m)))]).
    { unfold values_trimmed, values_trimmed_of. fold (t_kept argsort t). fold kept. rewrite ER. cbn [map].
      rewrite NF, take_repeat by auto. rewrite take_fin by (intros i Hi; rewrite Lm; auto).
      do 3 f_equal. rewrite rtake_length.
      transitivity (take kept (repeat (Fin (avg c)) n)).
      - f_equal. rewrite EC at 1. clear. induction n; simpl; congruence.
      - rewrite take_repeat by auto. clear. induction (length kept); simpl; congruence. }
    assert (KN : exists j, length kept = S j) by (exists (n - 2 * t_k t - 1)%nat; lia). destruct KN as [j Kj].
    assert (CS := fun r => cov_const argsort t r (avg c) n (t_k t)).
    assert (A1 : argmin (hd [] (values_trimmed argsort t)) = 0%nat) by (rewrite VT, Kj; apply arg_nan).
    assert (A2 : argmax (hd [] (values_trimmed argsort t)) = 0%nat) by (rewrite VT, Kj; apply arg_nan).
    assert (TL : t_len argsort t = length kept) by (unfold t_len; rewrite VT; cbn [hd]; apply repeat_length).
    assert (E12 : mentry cov 1 2 = Fin 0).
    { unfold mentry, cov, t_cov. rewrite VT. cbn [map nth]. apply CS; rewrite ?rtake_length; auto; lia. }
    assert (E22 : mentry cov 2 2 = Fin 0).
    { unfold mentry, cov, t_cov. rewrite VT. cbn [map nth].
      specialize (CS (repeat (avg c) (length (rtake kept m)))). rewrite repeat_length in CS.
      apply CS; rewrite ?rtake_length; auto; lia. }
    unfold theta. rewrite E12, E22. cbn [ndiv]. rewrite Req_bool_true by reflexivity. unfold ninf_of. now rewrite !Rlt_bool_false by lra.
  - (* the three rows are finite *)
    assert (FR : first = map Fin (adjusted m c)) by (apply first_adjustment; auto; try congruence; lia).
    assert (FT : finite_trimmed t [adjusted m c; m; c] n (t_k t)).
    { constructor; auto.
      - rewrite ER, FR. reflexivity.
      - discriminate.
      - intros r [<-|[<-|[<-|[]]]]; auto. unfold adjusted. rewrite zip_length; congruence. }
    assert (CM := cov_matrix_fin argsort HS t _ n (t_k t) FT 0 ltac:(lia)).
    unfold theta, mentry, cov. rewrite CM. cbn [map nth].
    set (w := widx argsort t [adjusted m c; m; c] (t_k t)).
    assert (D : IZR (Z.of_nat (n - 2 * t_k t) - 0) <> 0) by (apply not_0_IZR; lia).
    destruct (Req_dec (rcov argsort t [adjusted m c; m; c] n (t_k t) 0 c c) 0) as [Z0|Z0].
    + left. rewrite Z0.
      assert (Y0 : rcov argsort t [adjusted m c; m; c] n (t_k t) 0 m c = 0).
      { unfold rcov in *. fold w in Z0 |- *.
        assert (K := Cv_cauchy w (fun i => nth i m 0) (fun i => nth i c 0)). unfold Cv in K. fold (rtake w m) (rtake w c) in K.
        assert (U : codev (rtake w c) (rtake w c) = 0).
        { unfold Rdiv in Z0. apply Rmult_integral in Z0 as [|Z0]; auto. exfalso. revert Z0. now apply Rinv_neq_0_compat. }
        rewrite U in K. assert (U' : codev (rtake w m) (rtake w c) = 0) by nra. rewrite U'. unfold Rdiv. ring. }
      rewrite Y0. cbn [ndiv]. rewrite Req_bool_true by reflexivity. unfold ninf_of. now rewrite !Rlt_bool_false by lra.
    + right. eexists. now apply ndiv_fin.
Qed.

(** sorted rearrangement *)
Definition sorted_as (xs s : list R) : Prop := Permutation xs s /\ StronglySorted Rle s.

(** trimmed mean and sum of squared deviations of the clipped values *)
Definition tmean (k : nat) (s : list R) : R := avg (middle k s).
Definition tdev (k : nat) (xs s : list R) : R :=
  sqdev (map (clip (nth k s 0) (nth (length xs - 1 - k) s 0)) xs).

Lemma one_row argsort xs q n : sorts argsort -> usable n q -> length xs = n ->
  exists t, mk_trimmed argsort [map Fin xs] q = Ok t /\ Z.of_nat (t_k t) = trim_each n q /\ (2 * t_k t < n)%nat /\
    forall s, sorted_as xs s ->
      hd NaN (t_mean argsort t) = Fin (tmean (t_k t) s) /\
      hd NaN (t_var argsort t 0) = Fin (tdev (t_k t) xs s / INR (n - 2 * t_k t)).
Proof.
  intros HS HU L.
  destruct (mk_trimmed_usable argsort [map Fin xs] q n HS HU) as (t & Ht & ER & EK & H2); [discriminate| |].
  { intros r [<-|[]]. now rewrite map_length. }
  exists t. split; [auto|]. split; [auto|]. split; [auto|]. intros s [P SS].
  assert (HA : array n (fins [xs])).
  { destruct HU as (H0 & HB & _). split; [discriminate|]. split; auto. intros r [<-|[]]. now rewrite map_length. }
  assert (FT := trimmed_finite _ _ _ _ _ HS HA Ht).
  split.
  - rewrite (mean_real argsort HS t _ n (t_k t) FT). cbn [map hd]. f_equal. unfold tmean. apply avg_perm.
    exact (kept_middle argsort HS t [xs] n (t_k t) FT s P SS).
  - destruct (c45_winsorized_moments argsort [xs] q n t s 0 HS HA Ht P SS) as (_ & V & _); [lia|].
    rewrite V. f_equal. unfold tdev. cbn [hd]. rewrite L, Z.sub_0_r, <- INR_IZR_INZ. reflexivity.
Qed.

Lemma clip_shift lo hi b x : clip (lo + b) (hi + b) (x + b) = clip lo hi x + b.
Proof. unfold clip, Rmax, Rmin. destruct (Rle_dec (hi + b) (x + b)), (Rle_dec hi x); try lra;
  repeat match goal with |- context [Rle_dec ?u ?v] => destruct (Rle_dec u v) end; lra. Qed.

Lemma sorted_as_shift xs s b : sorted_as xs s -> sorted_as (map (fun x => x + b) xs) (map (fun x => x + b) s).
Proof.
  intros [P SS]. split; [now apply Permutation_map|]. clear P.
  induction SS as [|a l SS IH F]; simpl; constructor.
  - exact IH.
  - apply Forall_map. eapply Forall_impl; [|exact F]. simpl. intros; lra.
Qed.

Lemma sorted_as_unique xs s s' : sorted_as xs s -> sorted_as xs s' -> s = s'.
Proof.
  intros [P S1] [P' S2]. apply (Assign_Proofs.SSorted_unique Rle); auto.
  - intros; lra.
  - now rewrite <- P.
Qed.

Lemma shifted_moments xs s b k : sorted_as xs s -> (2 * k < length xs)%nat ->
  tmean k (map (fun x => x + b) s) = tmean k s + b /\
  tdev k (map (fun x => x + b) xs) (map (fun x => x + b) s) = tdev k xs s.
Proof.
  intros [P SS] HK. assert (L := Permutation_length P). split.
  - unfold tmean. rewrite middle_map. assert (NE : middle k s <> []).
    { intros E. assert (ML := middle_length k s). rewrite E in ML. simpl in ML. lia. }
    rewrite <- (Rmult_1_l (avg (middle k s))), <- avg_affine by auto. f_equal. apply map_ext. intros; ring.
  - unfold tdev. rewrite map_length, !(nth_indep (map (fun x => x + b) s) 0 ((fun x => x + b) 0)) by (rewrite map_length; lia).
    rewrite !(map_nth (fun x => x + b)). rewrite map_map.
    set (lo := nth k s 0). set (hi := nth (length xs - 1 - k) s 0).
    transitivity (sqdev (map (fun x => 1 * x + b) (map (clip lo hi) xs))).
    + f_equal. rewrite map_map. apply map_ext. intros x. rewrite clip_shift. ring.
    + rewrite sqdev_affine; [ring|]. intros E. apply map_eq_nil in E. subst. simpl in HK. lia.
Qed.

(** C49: with trimming *)
Theorem c49_trimmed_never_hurts :
  forall argsort m c q n k, sorts argsort -> usable n q -> trim_each n q = Z.of_nat k -> (0 < k)%nat ->
    length m = n -> length c = n ->
    exists y theta offset,
      apply_cuped_adjustment argsort (map Fin m) (map Fin c) q = Ok (map Fin y) /\
      y = map (fun p => fst p - theta * snd p + offset) (combine m c) /\
      forall sm sy, sorted_as m sm -> sorted_as y sy ->
        tmean k sy = tmean k sm /\ tdev k y sy <= tdev k m sm /\ (y = m \/ tdev k y sy < tdev k m sm).
Proof.
  intros argsort m c q n k HS HU HT HK Lm Lc.
  set (first := zip_with (fun x y => nsub x (nmul (ndiv (np_cov (map Fin m) (map Fin c)) (np_cov (map Fin c) (map Fin c))) (nsub y (nmean (map Fin c)))))
    (map Fin m) (map Fin c)).
  assert (LF : length first = n) by (unfold first; rewrite zip_length; rewrite !map_length; congruence).
  destruct (mk_trimmed_usable argsort [first; map Fin m; map Fin c] q n HS HU) as (t & Ht & ER & EK & H2); [discriminate| |].
  { intros r [<-|[<-|[<-|[]]]]; rewrite ?map_length; auto. }
  assert (EK' : t_k t = k) by lia.
  assert (TH := trimmed_theta_cases argsort m c q n t HS HU Lm Lc Ht ltac:(lia)). cbv zeta in TH.
  set (theta := ndiv (mentry (t_cov argsort t 0) 1 2) (mentry (t_cov argsort t 0) 2 2)) in *.
  destruct (one_row argsort m q n HS HU Lm) as (tm & Htm & EKm & H2m & Vm).
  assert (EKm' : t_k tm = k) by lia.
  assert (SELF : forall sm sy, sorted_as m sm -> sorted_as m sy ->
    tmean k sy = tmean k sm /\ tdev k m sy <= tdev k m sm /\ (m = m \/ tdev k m sy < tdev k m sm)).
  { intros sm sy A B. rewrite (sorted_as_unique _ _ _ A B). repeat split; auto. lra. }
  assert (MM : m = map (fun p => fst p - 0 * snd p + 0) (combine m c)).
  { assert (L : length m = length c) by congruence. clear -L. revert c L. induction m as [|x m IH]; intros [|y c] L; simpl in *; auto; try lia.
    f_equal; [ring|]. apply IH. lia. }
  assert (RUN : apply_cuped_adjustment argsort (map Fin m) (map Fin c) q =
    (let no_offset := zip_with (fun m c => nsub m (nmul theta c)) (map Fin m) (map Fin c) in
     bind (mk_trimmed argsort [no_offset] q) (fun tno =>
       if nltb (hd NaN (t_var argsort tno 0)) (hd NaN (t_var argsort tm 0))
       then Ok (map (fun x => nsub (nadd x (hd NaN (t_mean argsort tm))) (hd NaN (t_mean argsort tno))) no_offset)
       else Ok (map Fin m)))).
  { unfold apply_cuped_adjustment. rewrite !map_length, Lm, Lc, Nat.eqb_refl. cbn [negb raise_if bind]. fold first.
    rewrite Ht. cbn [bind]. rewrite EK'. destruct k; [lia|]. cbn [Nat.eqb]. fold theta. rewrite Htm. reflexivity. }
  cbv zeta in RUN. destruct TH as [TH|[th TH]].
  - exists m, 0, 0. split; [|split; auto]. rewrite RUN, TH.
    rewrite (zip_const _ NaN); [|intros [] []; reflexivity|rewrite !map_length; congruence].
    rewrite map_length, Lm.
    destruct (mk_trimmed_usable argsort [repeat NaN n] q n HS HU) as (tno & Hno & ERn & EKn & H2n); [discriminate| |].
    { intros r [<-|[]]. apply repeat_length. }
    rewrite Hno. cbn [bind].
    assert (VN : hd NaN (t_var argsort tno 0) = NaN).
    { unfold t_var. rewrite ERn. cbn [length seq map hd nth]. unfold t_cov. 
      assert (SZ : t_size tno = n) by (unfold t_size, sample_size; rewrite ERn; cbn [hd]; apply repeat_length).
      assert (VT : exists j, values_trimmed argsort tno = [repeat NaN (S j)]).
      { exists (n - 2 * t_k tno - 1)%nat. unfold values_trimmed, values_trimmed_of. rewrite ERn. cbn [map]. f_equal.
        rewrite <- ERn. fold (t_kept argsort tno). rewrite take_repeat.
        - f_equal. unfold t_kept. rewrite kept_length; auto; fold (t_size tno); rewrite SZ; lia.
        - intros i Hi. unfold t_kept in Hi. apply (kept_lt argsort HS) in Hi. fold (t_size tno) in Hi. now rewrite SZ in Hi. }
      destruct VT as [j VT]. rewrite VT. cbn [map nth].
      unfold cov_of. cbn [repeat map combine ndot].
      assert (W : wmean_of argsort tno (NaN :: repeat NaN j) = NaN) by reflexivity. rewrite W. reflexivity. }
    rewrite VN. reflexivity.
  - set (no := zip_with (fun x y => x - th * y) m c).
    assert (ZN : zip_with (fun m c => nsub m (nmul theta c)) (map Fin m) (map Fin c) = map Fin no).
    { apply zip_fin. intros x y. rewrite TH. reflexivity. }
    assert (Ln : length no = n) by (unfold no; rewrite zip_length; congruence).
    destruct (one_row argsort no q n HS HU Ln) as (tn & Htn & EKn & H2n & Vn).
    assert (EKn' : t_k tn = k) by lia.
    rewrite ZN, Htn in RUN. cbn [bind] in RUN.
    destruct (sorted_real m) as (sm & Psm). destruct (sorted_real no) as (sn & Psn).
    destruct (Vm sm Psm) as [Mm Dm]. destruct (Vn sn Psn) as [Mn Dn].
    rewrite Mm, Dm, Mn, Dn, EKm', EKn' in RUN.
    assert (PD : 0 < INR (n - 2 * k)) by (apply lt_0_INR; lia).
    cbn [nltb] in RUN. revert RUN. case Rlt_bool_spec; intros HV RUN.
    + set (b := tmean k sm - tmean k sn).
      exists (map (fun x => x + b) no), th, b. split; [|split].
      * rewrite RUN. f_equal. rewrite !map_map. apply map_ext. intros x. cbn [nadd nsub nneg]. f_equal. unfold b. ring.
      * unfold no, zip_with. rewrite map_map. reflexivity.
      * intros sm' sy Psm' Psy.
        rewrite <- (sorted_as_unique _ _ _ Psm Psm').
        rewrite <- (sorted_as_unique _ _ _ (sorted_as_shift _ _ b Psn) Psy).
        destruct (shifted_moments no sn b k Psn ltac:(lia)) as [-> ->].
        assert (LT : tdev k no sn < tdev k m sm).
        { apply Rmult_lt_reg_r with (/ INR (n - 2 * k)); [now apply Rinv_0_lt_compat|exact HV]. }
        split; [unfold b; ring|]. split; [lra|now right].
    + exists m, 0, 0. split; [exact RUN|split; auto].
Qed.

(** non-trivial case: seven samples, two trimmed on each side *)
Example c49_example : usable 7 (flit 2 7) /\ trim_each 7 (flit 2 7) = Z.of_nat 2.
Proof.
  assert (E : floor_mul (flit 2 7) 7 = Ok 2%Z) by (vm_compute; reflexivity).
  assert (K : (fltb (flit 2 7) f0 || fgeb (flit 2 7) fhalf)%bool = false) by (vm_compute; reflexivity).
  assert (Q : is_finite (flit 2 7) = true /\ 0 <= B2R (flit 2 7) < 1 / 2) by (apply (quantile_checks _ 2 7); auto; vm_compute; discriminate).
  split. { split; [lia|]. split; [vm_compute; discriminate|exact Q]. }
  apply floor_mul_ok in E as (_ & _ & _ & E). rewrite rnd_IZR in E by (vm_compute; discriminate).
  unfold trim_each. replace (INR 7) with (IZR 7) by (simpl; lra). now rewrite <- E.
Qed.

Print Assumptions c48_without_trimming.
Print Assumptions c48_constant_covariate_gives_nan.
Print Assumptions c48_mean_is_unchanged_refuted.
Print Assumptions c49_trimmed_never_hurts.
