(** C96: the CUPED adjustment and the unit of the covariate. *)
From Coq Require Import ZArith Reals Lra Lia List Bool Permutation Sorting.Sorted.
From Flocq Require Import Core BinarySingleNaN.
Require Import Verif.Base Verif.Num Verif.NumOrd Verif.F64 Verif.ListLib
  Verif.Trimmed_Model Verif.Trimmed_Spec Verif.Moments Verif.Trimmed_Proofs Verif.Trimmed_Real Verif.Trimmed_Props
  Verif.Cuped_Model Verif.Cuped_Props.
Import ListNotations.
Open Scope R_scope.

(** the covariate in another unit *)
Definition in_unit (a b : R) (c : list R) : list R := map (fun x => a * x + b) c.

Lemma arg_best_bound better : forall l best bi i, (bi < i + length l)%nat -> (0 < i)%nat -> (bi < i)%nat ->
  (arg_best better best bi i l < i + length l)%nat.
Proof.
  induction l as [|x l IH]; intros best bi i H1 H2 H3; simpl in *; [lia|].
  destruct (nis_nan best); [lia|]. destruct (nis_nan x || better x best)%bool.
  - specialize (IH x i (S i)). lia.
  - specialize (IH best bi (S i)). lia.
Qed.
Lemma argmin_bound' l : l <> [] -> (argmin l < length l)%nat.
Proof. destruct l as [|x l]; [congruence|]. intros _. simpl. apply (arg_best_bound nltb l x 0 1); lia. Qed.
Lemma argmax_bound' l : l <> [] -> (argmax l < length l)%nat.
Proof. destruct l as [|x l]; [congruence|]. intros _. simpl. apply (arg_best_bound _ l x 0 1); lia. Qed.

(** covariances of finite rows, whatever the first row holds *)
Section General.
Context (argsort : list num -> list nat) (t : tarray) (h k : nat).
Context (Hh : (0 < h)%nat) (HK : t_k t = k) (HL : t_len argsort t = h) (HZ : t_size t = (h + 2 * k)%nat).

Let first := hd [] (values_trimmed argsort t).
Let positions : list nat := (seq 0 h ++ repeat (argmin first) k ++ repeat (argmax first) k)%list.
Let at_ (r : list R) : nat -> R := fun i => nth i r 0.

Lemma first_nonempty : first <> [].
Proof. unfold first. intros E. unfold t_len in HL. rewrite E in HL. simpl in HL. lia. Qed.
Lemma imin_lt : (argmin first < h)%nat.
Proof. rewrite <- HL. unfold t_len. fold first. apply argmin_bound', first_nonempty. Qed.
Lemma imax_lt : (argmax first < h)%nat.
Proof. rewrite <- HL. unfold t_len. fold first. apply argmax_bound', first_nonempty. Qed.

Lemma sum_positions f : Sm positions f = total (map f (seq 0 h)) + INR k * (f (argmin first) + f (argmax first)).
Proof.
  unfold Sm, positions. rewrite !map_app, !total_app.
  assert (RP : forall i, map f (repeat i k) = repeat (f i) k) by (intros i; clear; induction k; simpl; congruence).
  rewrite !RP, !total_repeat. ring.
Qed.
Lemma positions_length : length positions = (h + 2 * k)%nat.
Proof. unfold positions. rewrite !app_length, !repeat_length, seq_length. lia. Qed.
Lemma positions_nonempty : positions <> [].
Proof. intros E. assert (L := positions_length). rewrite E in L. simpl in L. lia. Qed.

Lemma general_ends r : length r = h ->
  min_value argsort t (map Fin r) = Fin (at_ r (argmin first)) /\ max_value argsort t (map Fin r) = Fin (at_ r (argmax first)).
Proof.
  intros L. unfold min_value, max_value. fold first. split; apply nth_map_Fin; rewrite L; [apply imin_lt|apply imax_lt].
Qed.

Lemma general_wmean r : length r = h -> wmean_of argsort t (map Fin r) = Fin (Av positions (at_ r)).
Proof.
  intros L. unfold wmean_of. destruct (general_ends r L) as [-> ->]. rewrite nsum_Fin, HK, HZ. cbn [nadd nmul].
  rewrite ndiv_fin by (apply not_0_INR; lia). f_equal. rewrite Av_S, sum_positions, positions_length.
  f_equal. f_equal. unfold at_. rewrite <- L. now rewrite Assign_Proofs.map_nth_seq.
Qed.

Lemma general_cov r s ddof : length r = h -> length s = h -> (ddof < Z.of_nat h)%Z ->
  cov_of argsort t ddof (map Fin r) (map Fin s) = Fin (Cv positions (at_ r) (at_ s) / IZR (Z.of_nat h - ddof)).
Proof.
  intros Lr Ls HD. unfold cov_of. rewrite (general_wmean r Lr), (general_wmean s Ls).
  destruct (general_ends r Lr) as [-> ->]. destruct (general_ends s Ls) as [-> ->]. rewrite HK, HL, !resid_fin, ndot_fin.
  cbn [nsub nneg nadd nmul]. rewrite ndiv_fin by (apply not_0_IZR; lia). f_equal. f_equal.
  rewrite Cv_S, sum_positions. unfold Rminus. f_equal.
  set (x := Av positions (at_ r)). set (y := Av positions (at_ s)).
  assert (Er : r = map (at_ r) (seq 0 h)) by (unfold at_; rewrite <- Lr; symmetry; apply Assign_Proofs.map_nth_seq).
  assert (Es : s = map (at_ s) (seq 0 h)) by (unfold at_; rewrite <- Ls; symmetry; apply Assign_Proofs.map_nth_seq).
  rewrite Er at 1. rewrite Es at 1. rewrite !map_map, combine_map2, map_map. reflexivity.
Qed.

(** the coefficient after trimming, for a covariate and the same covariate in another unit *)
Lemma general_theta m c a b : length m = h -> length c = h -> a <> 0 ->
  let theta := ndiv (cov_of argsort t 0 (map Fin m) (map Fin c)) (cov_of argsort t 0 (map Fin c) (map Fin c)) in
  let theta' := ndiv (cov_of argsort t 0 (map Fin m) (map Fin (in_unit a b c))) (cov_of argsort t 0 (map Fin (in_unit a b c)) (map Fin (in_unit a b c))) in
  (theta = NaN /\ theta' = NaN) \/ exists th, theta = Fin th /\ theta' = Fin (th / a).
Proof.
  intros Lm Lc Ha theta theta'.
  assert (Lc' : length (in_unit a b c) = h) by (unfold in_unit; now rewrite map_length).
  unfold theta, theta'. rewrite !general_cov by (auto; lia). rewrite Z.sub_0_r.
  assert (NE := positions_nonempty).
  assert (D : IZR (Z.of_nat h) <> 0) by (apply not_0_IZR; lia).
  assert (EX : forall i, In i positions -> at_ (in_unit a b c) i = a * at_ c i + b * (fun _ => 1) i).
  { intros i Hi. unfold at_, in_unit.
    assert (Hi' : (i < length c)%nat).
    { rewrite Lc. unfold positions in Hi. apply in_app_or in Hi as [Hi|Hi]; [apply in_seq in Hi; lia|].
      apply in_app_or in Hi as [Hi|Hi]; apply repeat_spec in Hi; rewrite Hi; [apply imin_lt|apply imax_lt]. }
    rewrite nth_indep with (d' := (fun x => a * x + b) 0) by (now rewrite map_length).
    rewrite (map_nth (fun x => a * x + b)). ring. }
  assert (E1 : Cv positions (at_ m) (at_ (in_unit a b c)) = a * Cv positions (at_ m) (at_ c)).
  { rewrite (Cv_ext positions (at_ m) (at_ m) _ (fun i => a * at_ c i + b * (fun _ => 1) i)) by auto.
    rewrite Cv_lin_r, Cv_const_r by auto. ring. }
  assert (E2 : Cv positions (at_ (in_unit a b c)) (at_ (in_unit a b c)) = a ^ 2 * Cv positions (at_ c) (at_ c)).
  { rewrite (Cv_ext positions _ (fun i => a * at_ c i + b * (fun _ => 1) i) _ (fun i => a * at_ c i + b * (fun _ => 1) i)) by auto.
    rewrite Cv_lin_r, Cv_const_r, Cv_lin_l, Cv_const_l by auto. ring. }
  rewrite E1, E2.
  assert (CS := Cv_cauchy positions (at_ m) (at_ c)).
  set (x := Cv positions (at_ m) (at_ c)) in *. set (y := Cv positions (at_ c) (at_ c)) in *.
  assert (NAN : ndiv (Fin 0) (Fin 0) = NaN).
  { cbn [ndiv]. rewrite Req_bool_true by reflexivity. unfold ninf_of. now rewrite !Rlt_bool_false by lra. }
  destruct (Req_dec y 0) as [Y|Y].
  - left. assert (X : x = 0) by (rewrite Y in CS; nra). rewrite X, Y, !Rmult_0_r. unfold Rdiv. rewrite !Rmult_0_l. auto.
  - right. exists (x / y). rewrite !ndiv_fin.
    + split; f_equal; field; auto.
    + unfold Rdiv. apply Rmult_integral_contrapositive_currified; [|now apply Rinv_neq_0_compat].
      apply Rmult_integral_contrapositive_currified; auto. now apply pow_nonzero.
    + unfold Rdiv. apply Rmult_integral_contrapositive_currified; auto. now apply Rinv_neq_0_compat.
Qed.
End General.

(** the first step *)
Lemma codev_unit m c a b : length m = length c -> m <> [] ->
  codev m (in_unit a b c) = a * codev m c /\ codev (in_unit a b c) (in_unit a b c) = a ^ 2 * codev c c /\ avg (in_unit a b c) = a * avg c + b.
Proof.
  intros L NE. destruct (as_functions m c L) as [Em Ec]. set (J := seq 0 (length m)) in *.
  assert (NJ : J <> []) by (unfold J; destruct m; [congruence|discriminate]).
  set (fm := fun i => nth i m 0) in *. set (fc := fun i => nth i c 0) in *.
  assert (Eu : in_unit a b c = map (fun i => a * fc i + b * (fun _ => 1) i) J).
  { unfold in_unit. rewrite Ec at 1. rewrite map_map. apply map_ext. intros; ring. }
  split; [|split].
  - transitivity (Cv J fm (fun i => a * fc i + b * (fun _ => 1) i)); [unfold Cv; now rewrite <- Eu, <- Em|].
    rewrite Cv_lin_r, Cv_const_r by auto. transitivity (a * Cv J fm fc); [ring|]. unfold Cv. now rewrite <- Em, <- Ec.
  - transitivity (Cv J (fun i => a * fc i + b * (fun _ => 1) i) (fun i => a * fc i + b * (fun _ => 1) i)); [unfold Cv; now rewrite <- Eu|].
    rewrite Cv_lin_r, Cv_const_r, Cv_lin_l, Cv_const_l by auto. transitivity (a ^ 2 * Cv J fc fc); [ring|]. unfold Cv. now rewrite <- Ec.
  - unfold in_unit. apply avg_affine. intros ->. simpl in L. destruct m; [congruence|discriminate].
Qed.

Lemma zip_unit {B} (f g : R -> R -> B) a b m c : (forall x y, f x (a * y + b) = g x y) -> zip_with f m (in_unit a b c) = zip_with g m c.
Proof. intros H. unfold zip_with, in_unit. revert c. induction m as [|x m IH]; intros [|y c]; simpl; auto. now rewrite IH, H. Qed.

Definition first_step (m c : list num) : list num :=
  zip_with (fun x y => nsub x (nmul (ndiv (np_cov m c) (np_cov c c)) (nsub y (nmean c)))) m c.

Lemma first_step_unit m c a b : length m = length c -> (0 < length m)%nat -> a <> 0 ->
  first_step (map Fin m) (map Fin (in_unit a b c)) = first_step (map Fin m) (map Fin c).
Proof.
  intros L H0 Ha. assert (NE : m <> []) by (intros ->; simpl in H0; lia).
  assert (Lu : length m = length (in_unit a b c)) by (unfold in_unit; now rewrite map_length).
  destruct (codev_unit m c a b L NE) as (E1 & E2 & E3). unfold first_step.
  destruct (Nat.eq_dec (length m) 1) as [N1|N1]; [|destruct (Req_dec (codev c c) 0) as [Z|Z]].
  - rewrite !first_adjustment_nan by auto.
    rewrite !(zip_const _ NaN); auto; try (intros [] []; reflexivity); rewrite !map_length; auto.
  - rewrite !first_adjustment_nan by (auto; right; rewrite ?E2, ?Z; ring).
    rewrite !(zip_const _ NaN); auto; try (intros [] []; reflexivity); rewrite !map_length; auto.
  - rewrite !first_adjustment; auto; try lia.
    + f_equal. unfold adjusted. rewrite E1, E2, E3. apply zip_unit. intros x y. field. auto.
    + rewrite E2. apply Rmult_integral_contrapositive_currified; auto. now apply pow_nonzero.
Qed.

(** C96: the result does not depend on the unit or the origin of the covariate *)
Theorem c96_unit_of_the_covariate_does_not_matter :
  forall argsort m c q a b, sorts argsort -> usable (length m) q -> length c = length m -> a <> 0 ->
    apply_cuped_adjustment argsort (map Fin m) (map Fin (in_unit a b c)) q =
    apply_cuped_adjustment argsort (map Fin m) (map Fin c) q.
Proof.
  intros argsort m c q a b HS HU Lc Ha. set (n := length m) in *.
  assert (H0 : (0 < n)%nat) by apply HU.
  assert (Lu : length (in_unit a b c) = n) by (unfold in_unit; now rewrite map_length).
  unfold apply_cuped_adjustment. rewrite !map_length, Lc, Lu. fold n. rewrite Nat.eqb_refl. cbn [negb raise_if bind].
  fold (first_step (map Fin m) (map Fin (in_unit a b c))). fold (first_step (map Fin m) (map Fin c)).
  rewrite first_step_unit by auto. set (first := first_step (map Fin m) (map Fin c)).
  assert (LF : length first = n) by (unfold first, first_step; rewrite zip_length; rewrite !map_length; auto).
  destruct (mk_trimmed_usable argsort [first; map Fin m; map Fin c] q n HS HU) as (t & Ht & ER & EK & H2); [discriminate| |].
  { intros r [<-|[<-|[<-|[]]]]; rewrite ?map_length; auto. }
  destruct (mk_trimmed_usable argsort [first; map Fin m; map Fin (in_unit a b c)] q n HS HU) as (u & Hu & ERu & EKu & H2u); [discriminate| |].
  { intros r [<-|[<-|[<-|[]]]]; rewrite ?map_length; auto. }
  rewrite Ht, Hu. cbn [bind]. assert (KE : t_k u = t_k t) by lia. rewrite KE.
  destruct (t_k t) as [|k'] eqn:EKt; [reflexivity|]. cbn [Nat.eqb]. rewrite <- EKt in *. set (k := t_k t) in *.
  (* the kept columns are the same *)
  set (kept := kept_index argsort [first; map Fin m; map Fin c] k).
  assert (KU : kept_index argsort [first; map Fin m; map Fin (in_unit a b c)] k = kept) by reflexivity.
  assert (KL : length kept = (n - 2 * k)%nat) by (unfold kept; rewrite kept_length; auto; unfold sample_size; cbn [hd]; lia).
  assert (KB : forall i, In i kept -> (i < n)%nat).
  { intros i Hi. unfold kept in Hi. apply (kept_lt argsort HS) in Hi. unfold sample_size in Hi. cbn [hd] in Hi. lia. }
  assert (VT : values_trimmed argsort t = [take kept first; map Fin (rtake kept m); map Fin (rtake kept c)]).
  { unfold values_trimmed, values_trimmed_of. rewrite ER. fold k. fold kept. cbn [map].
    rewrite !take_fin by (intros i Hi; apply KB in Hi; fold n; lia). reflexivity. }
  assert (RU : rtake kept (in_unit a b c) = in_unit a b (rtake kept c)).
  { unfold rtake, in_unit. rewrite map_map. apply map_ext_in. intros i Hi. apply KB in Hi.
    rewrite nth_indep with (d' := (fun x => a * x + b) 0) by (rewrite map_length; lia). apply (map_nth (fun x => a * x + b)). }
  assert (VU : values_trimmed argsort u = [take kept first; map Fin (rtake kept m); map Fin (in_unit a b (rtake kept c))]).
  { unfold values_trimmed, values_trimmed_of. rewrite ERu, KE, KU. cbn [map].
    rewrite !take_fin by (intros i Hi; apply KB in Hi; fold n; lia). now rewrite RU. }
  assert (TL : t_len argsort t = (n - 2 * k)%nat) by (unfold t_len; rewrite VT; cbn [hd]; unfold take; now rewrite map_length).
  assert (TZ : t_size t = (n - 2 * k + 2 * k)%nat) by (unfold t_size, sample_size; rewrite ER; cbn [hd]; lia).
  assert (CE : forall r s, cov_of argsort u 0 r s = cov_of argsort t 0 r s).
  { intros r s. unfold cov_of, wmean_of, min_value, max_value, t_len, t_size, sample_size. rewrite VU, VT, ER, ERu, KE. reflexivity. }
  assert (TH := general_theta argsort t (n - 2 * k) k ltac:(lia) eq_refl TL TZ (rtake kept m) (rtake kept c) a b).
  rewrite !rtake_length in TH. specialize (TH KL KL Ha). cbv zeta in TH.
  assert (M12 : mentry (t_cov argsort t 0) 1 2 = cov_of argsort t 0 (map Fin (rtake kept m)) (map Fin (rtake kept c))) by (unfold mentry, t_cov; now rewrite VT).
  assert (M22 : mentry (t_cov argsort t 0) 2 2 = cov_of argsort t 0 (map Fin (rtake kept c)) (map Fin (rtake kept c))) by (unfold mentry, t_cov; now rewrite VT).
  assert (U12 : mentry (t_cov argsort u 0) 1 2 = cov_of argsort t 0 (map Fin (rtake kept m)) (map Fin (in_unit a b (rtake kept c))))
    by (unfold mentry, t_cov; rewrite VU; cbn [map nth]; apply CE).
  assert (U22 : mentry (t_cov argsort u 0) 2 2 = cov_of argsort t 0 (map Fin (in_unit a b (rtake kept c))) (map Fin (in_unit a b (rtake kept c))))
    by (unfold mentry, t_cov; rewrite VU; cbn [map nth]; apply CE).
  rewrite M12, M22, U12, U22.
  destruct TH as [[-> ->]|(th & -> & ->)].
  - rewrite (zip_const (fun m0 c0 => nsub m0 (nmul NaN c0)) NaN (map Fin m) (map Fin (in_unit a b c))); [|intros [] []; reflexivity|rewrite !map_length; auto].
    rewrite (zip_const (fun m0 c0 => nsub m0 (nmul NaN c0)) NaN (map Fin m) (map Fin c)); [|intros [] []; reflexivity|rewrite !map_length; auto].
    reflexivity.
  - set (no := zip_with (fun x y => x - th * y) m c). set (d := - (th / a * b)).
    rewrite (zip_fin (fun m0 c0 => nsub m0 (nmul (Fin th) c0)) (fun x y => x - th * y)) by reflexivity.
    rewrite (zip_fin (fun m0 c0 => nsub m0 (nmul (Fin (th / a)) c0)) (fun x y => x - th / a * y)) by reflexivity. fold no.
    assert (EN : zip_with (fun x y => x - th / a * y) m (in_unit a b c) = map (fun x => x + d) no).
    { unfold no. rewrite (zip_unit _ (fun x y => x - th * y + d)) by (intros x y; unfold d; field; auto).
      unfold zip_with. rewrite map_map. reflexivity. }
    rewrite EN.
    assert (Ln : length no = n) by (unfold no; rewrite zip_length; auto).
    assert (Ln' : length (map (fun x => x + d) no) = n) by (now rewrite map_length).
    destruct (one_row argsort no q n HS HU Ln) as (tn & Htn & EKn & H2n & Vn).
    destruct (one_row argsort (map (fun x => x + d) no) q n HS HU Ln') as (tn' & Htn' & EKn' & H2n' & Vn').
    destruct (mk_trimmed argsort [map Fin m] q) as [tm|e]; [|reflexivity]. cbn [bind].
    rewrite Htn, Htn'. cbn [bind].
    destruct (sorted_real no) as (sn & Psn).
    destruct (Vn sn Psn) as [Mn Dn].
    destruct (Vn' _ (sorted_as_shift _ _ d Psn)) as [Mn' Dn'].
    assert (KK : t_k tn' = t_k tn) by lia. rewrite KK in Mn', Dn'.
    destruct (shifted_moments no sn d (t_k tn) Psn ltac:(lia)) as [S1 S2].
    rewrite S1 in Mn'. rewrite S2 in Dn'. rewrite Mn, Dn, Mn', Dn'.
    match goal with |- (if ?x then _ else _) = _ => destruct x end; [|reflexivity].
    f_equal. rewrite !map_map. apply map_ext. intros x.
    destruct (hd NaN (t_mean argsort tm)) as [mm| | |]; cbn [nadd nsub nneg]; try reflexivity. f_equal. ring.
Qed.

(** without trimming the adjusted metric follows the unit and the origin of the metric *)
Theorem c96_unit_of_the_metric :
  forall argsort m c q a b y, sorts argsort -> usable (length m) q -> trim_each (length m) q = 0%Z ->
    length c = length m -> (2 <= length m)%nat -> sqdev c <> 0 ->
    apply_cuped_adjustment argsort (map Fin m) (map Fin c) q = Ok (map Fin y) ->
    apply_cuped_adjustment argsort (map Fin (in_unit a b m)) (map Fin c) q = Ok (map Fin (in_unit a b y)).
Proof.
  intros argsort m c q a b y HS HU HT Lc H2 HC HY. set (n := length m) in *.
  assert (CC : codev c c <> 0) by (now rewrite codev_self).
  assert (RUN : forall m', length m' = n -> apply_cuped_adjustment argsort (map Fin m') (map Fin c) q = Ok (map Fin (adjusted m' c))).
  { intros m' Lm'. unfold apply_cuped_adjustment. rewrite !map_length, Lm', Lc, Nat.eqb_refl. cbn [negb raise_if bind].
    rewrite first_adjustment by (auto; lia).
    destruct (mk_trimmed_usable argsort [map Fin (adjusted m' c); map Fin m'; map Fin c] q n) as (t & Ht & _ & EK & _); auto.
    { discriminate. }
    { intros r [<-|[<-|[<-|[]]]]; rewrite map_length; auto. unfold adjusted. rewrite zip_length; lia. }
    rewrite Ht. cbn [bind]. rewrite HT in EK. replace (t_k t) with 0%nat by lia. reflexivity. }
  rewrite RUN in HY by reflexivity. rewrite RUN by (unfold in_unit; now rewrite map_length).
  assert (EY : y = adjusted m c).
  { assert (E : map Fin (adjusted m c) = map Fin y) by congruence. clear -E. revert E. generalize (adjusted m c). intros l.
    revert y. induction l as [|x l IH]; intros [|z y] E; simpl in E; try discriminate; auto. injection E as -> E. f_equal. auto. }
  subst y. do 2 f_equal.
  assert (NE : c <> []) by (intros ->; simpl in Lc; lia).
  destruct (codev_unit c m a b Lc NE) as (E1 & _).
  assert (SY : forall l l' : list R, length l = length l' -> codev l l' = codev l' l).
  { clear. intros l l' L. unfold codev. generalize (avg l) (avg l'). intros u v. revert l' L.
    induction l as [|x l IH]; intros [|y l'] L; simpl in *; auto; try lia. f_equal; [ring|]. apply IH. lia. }
  unfold adjusted. rewrite (SY (in_unit a b m) c) by (unfold in_unit; rewrite map_length; lia).
  rewrite E1, (SY c m) by lia. set (th := codev m c / codev c c).
  replace (a * codev m c / codev c c) with (a * th) by (unfold th; field; auto).
  unfold zip_with, in_unit. rewrite map_map. generalize (avg c) th. intros z th2. clear. revert c.
  induction m as [|x m IH]; intros [|w c]; simpl; auto. f_equal; [ring|apply IH].
Qed.

(** non-trivial cases: seven samples, two trimmed on each side, and three samples untrimmed *)
Example c96_example : usable 7 (flit 2 7) /\ trim_each 7 (flit 2 7) = Z.of_nat 2 /\ usable 3 f0 /\ trim_each 3 f0 = 0%Z /\ sqdev [1; 2; 4] <> 0.
Proof.
  destruct c49_example as [U E]. split; [exact U|]. split; [exact E|].
  destruct (usable_0 3 ltac:(lia) ltac:(vm_compute; discriminate)) as [U3 T3]. split; [exact U3|]. split; [exact T3|].
  unfold sqdev, avg, total. simpl. lra.
Qed.

Print Assumptions c96_unit_of_the_covariate_does_not_matter.
Print Assumptions c96_unit_of_the_metric.
