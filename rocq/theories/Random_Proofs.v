(** Sums over all the ways to choose [k] of [n] items. *)
From Coq Require Import Reals Lra Lia List Bool Permutation.
Require Import Verif.Trimmed_Spec Verif.Moments.
Import ListNotations.
Open Scope R_scope.

(** every assignment of [n] items: [true] is the treatment arm *)
Fixpoint vectors (n : nat) : list (list bool) :=
  match n with O => [[]] | S n => map (cons true) (vectors n) ++ map (cons false) (vectors n) end.
Definition treated_in (v : list bool) : nat := length (filter (fun b => b) v).
(** the assignments with [k] treated items *)
Definition splits (n k : nat) : list (list bool) := filter (fun v => Nat.eqb (treated_in v) k) (vectors n).
(** the values of the treated items *)
Definition picked {A} (v : list bool) (xs : list A) : list A := map snd (filter fst (combine v xs)).

Lemma vectors_all n v : In v (vectors n) <-> length v = n.
Proof.
  revert v. induction n as [|n IH]; intros v; cbn [vectors].
  - split; [intros [<-|[]]; reflexivity|]. destruct v; [now left|discriminate].
  - rewrite in_app_iff, !in_map_iff. split.
    + intros [(w & <- & H)|(w & <- & H)]; apply IH in H; cbn; congruence.
    + destruct v as [|b v]; [discriminate|]. intros E. cbn in E. assert (In v (vectors n)) by (apply IH; lia). destruct b; [left|right]; now exists v.
Qed.
Lemma NoDup_map_cons {A} (b : A) l : NoDup l -> NoDup (map (cons b) l).
Proof.
  induction 1 as [|x l N _ IH]; [constructor|]. cbn. constructor; auto. rewrite in_map_iff. intros (y & E & H). injection E as ->. contradiction.
Qed.
Lemma vectors_once n : NoDup (vectors n).
Proof.
  induction n as [|n IH]; cbn [vectors]; [repeat constructor; intros []|].
  assert (G : forall l m : list (list bool), NoDup l -> NoDup m -> (forall x, In x l -> ~ In x m) -> NoDup (l ++ m)).
  { induction l as [|x l IHl]; intros m H1 H2 D; auto. inversion H1; subst. cbn. constructor.
    - rewrite in_app_iff. intros [H|H]; [contradiction|]. apply (D x); [now left|auto].
    - apply IHl; auto. intros y Hy. apply D. now right. }
  apply G; auto using NoDup_map_cons. intros v. rewrite !in_map_iff. intros (w & <- & _) (u & E & _). discriminate.
Qed.
Lemma in_splits n k v : In v (splits n k) <-> length v = n /\ treated_in v = k.
Proof. unfold splits. rewrite filter_In, vectors_all, Nat.eqb_eq. tauto. Qed.

Lemma filter_map_cons k b l : filter (fun v => Nat.eqb (treated_in v) k) (map (cons b) l) = map (cons b) (filter (fun v => Nat.eqb (treated_in (b :: v)) k) l).
Proof. induction l as [|v l IH]; [reflexivity|]. cbn [map filter]. destruct (Nat.eqb (treated_in (b :: v)) k); cbn; now rewrite IH. Qed.
Lemma splits_SS n k : splits (S n) (S k) = map (cons true) (splits n k) ++ map (cons false) (splits n (S k)).
Proof. unfold splits. cbn [vectors]. rewrite filter_app, !filter_map_cons. reflexivity. Qed.
Lemma splits_S0 n : splits (S n) 0 = map (cons false) (splits n 0).
Proof.
  unfold splits. cbn [vectors]. rewrite filter_app, !filter_map_cons. replace (filter _ (vectors n)) with (@nil (list bool)); [reflexivity|].
  symmetry. induction (vectors n) as [|v l IH]; [reflexivity|]. cbn [filter]. exact IH.
Qed.
Lemma splits_00 : splits 0 0 = [[]].
Proof. reflexivity. Qed.
Lemma splits_0S k : splits 0 (S k) = [].
Proof. reflexivity. Qed.

Notation N n k := (INR (length (splits n k))).
Lemma N_SS n k : N (S n) (S k) = N n k + N n (S k).
Proof. rewrite splits_SS, app_length, !map_length. apply plus_INR. Qed.
Lemma N_S0 n : N (S n) 0 = N n 0.
Proof. rewrite splits_S0, map_length. reflexivity. Qed.
Lemma N_ratio n : forall k, INR (S k) * N n (S k) = (INR n - INR k) * N n k.
Proof.
  induction n as [|n IH]; intros k.
  - rewrite splits_0S. destruct k as [|k]; [cbn; ring|rewrite splits_0S; cbn; ring].
  - destruct k as [|k].
    + rewrite N_SS, N_S0. assert (H := IH 0%nat). rewrite !S_INR in *. change (INR 0) with 0 in *. lra.
    + rewrite N_SS. rewrite (N_SS n k). assert (H1 := IH k). assert (H2 := IH (S k)). rewrite !S_INR in *. nra.
Qed.
Lemma N_pos n k : (k <= n)%nat -> 0 < N n k.
Proof.
  revert k. induction n as [|n IH]; intros k H; [assert (k = 0%nat) as -> by lia; rewrite splits_00; cbn; lra|].
  destruct k as [|k]; [rewrite N_S0; apply IH; lia|]. rewrite N_SS. assert (0 < N n k) by (apply IH; lia). assert (0 <= N n (S k)) by apply pos_INR. lra.
Qed.

Definition dot (v : list bool) (c : list R) : R := total (picked v c).
Lemma dot_true v y c : dot (true :: v) (y :: c) = y + dot v c.
Proof. reflexivity. Qed.
Lemma dot_false v y c : dot (false :: v) (y :: c) = dot v c.
Proof. reflexivity. Qed.
Lemma dot_none v c : treated_in v = 0%nat -> dot v c = 0.
Proof.
  revert c. induction v as [|b v IH]; intros [|y c] H; try reflexivity; try (destruct b; reflexivity).
  destruct b; [discriminate|]. rewrite dot_false. now apply IH.
Qed.
Lemma P_SS n k f : Sm (splits (S n) (S k)) f = Sm (splits n k) (fun v => f (true :: v)) + Sm (splits n (S k)) (fun v => f (false :: v)).
Proof. unfold Sm. rewrite splits_SS, map_app, !map_map, total_app. reflexivity. Qed.
Lemma P_0 n c f : f 0 = 0 -> Sm (splits n 0) (fun v => f (dot v c)) = 0.
Proof.
  intros F. rewrite (Sm_ext _ _ (fun _ => 0)); [rewrite Sm_const; ring|]. intros v Hv. apply in_splits in Hv as [_ H]. now rewrite dot_none.
Qed.
Lemma P_0S k f : Sm (splits 0 (S k)) f = 0.
Proof. reflexivity. Qed.

(** each item is treated in the share k / n of the assignments *)
Lemma first_moment c : forall k, INR (length c) * Sm (splits (length c) k) (fun v => dot v c) = INR k * N (length c) k * total c.
Proof.
  induction c as [|y c IH]; intros k; [cbn [length INR total fold_right]; ring|].
  destruct k as [|k]; [rewrite (P_0 _ _ (fun x => x)) by reflexivity; cbn [INR]; ring|].
  set (n := length c) in *. change (length (y :: c)) with (S n). rewrite P_SS.
  rewrite (Sm_ext _ _ (fun v => y + dot v c)) by (intros; apply dot_true). rewrite Sm_plus, Sm_const.
  rewrite (Sm_ext (splits n (S k)) _ (fun v => dot v c)) by (intros; apply dot_false).
  rewrite N_SS. assert (R := N_ratio n k). assert (H1 := IH k). assert (H2 := IH (S k)). change (total (y :: c)) with (y + total c).
  set (a := N n k) in *. set (b := N n (S k)) in *. set (Y := total c) in *.
  set (s := Sm (splits n k) (fun v => dot v c)) in *. set (s' := Sm (splits n (S k)) (fun v => dot v c)) in *.
  destruct (Nat.eq_dec n 0) as [E|E].
  - assert (s = 0 /\ s' = 0 /\ Y = 0) as (-> & -> & ->).
    { assert (c = []) as -> by (destruct c; [reflexivity|discriminate]). unfold s, s', Y.
      split; [|split; [|reflexivity]]; (rewrite (Sm_ext _ _ (fun _ => 0)); [rewrite Sm_const; ring|]); intros v _; destruct v; reflexivity. }
    rewrite E in *. rewrite !S_INR in *. cbn [INR] in *. rewrite Rplus_0_l, Rmult_1_l. 
    transitivity ((INR k + 1) * b * y + (INR k + 1) * a * y); [|ring]. rewrite R. ring.
  - assert (Pn : 0 < INR n) by (apply (lt_INR 0); lia). rewrite !S_INR in *.
    assert (s = INR k * a * Y / INR n) as -> by (apply (Rmult_eq_reg_l (INR n)); [rewrite H1; field; lra|lra]).
    assert (s' = (INR k + 1) * b * Y / INR n) as -> by (apply (Rmult_eq_reg_l (INR n)); [rewrite H2; field; lra|lra]).
    assert (b = (INR n - INR k) * a / (INR k + 1)) as ->.
    { assert (0 <= INR k) by apply pos_INR. apply (Rmult_eq_reg_l (INR k + 1)); [rewrite R; field; lra|lra]. }
    assert (0 <= INR k) by apply pos_INR. field. lra.
Qed.

(** each pair of items is treated together in the share k (k - 1) / (n (n - 1)) of the assignments *)
Definition squares (c : list R) : R := total (map (fun x => x * x) c).
Lemma second_moment c : forall k,
  INR (length c) * (INR (length c) - 1) * Sm (splits (length c) k) (fun v => dot v c * dot v c) =
  N (length c) k * (INR k * (INR (length c) - INR k) * squares c + INR k * (INR k - 1) * (total c * total c)).
Proof.
  induction c as [|y c IH]; intros k.
  { unfold squares. cbn [length INR total map fold_right]. ring. }
  destruct k as [|k]; [rewrite (P_0 _ _ (fun x => x * x)) by ring; cbn [INR]; ring|].
  assert (F1 := first_moment c k).
  set (n := length c) in *. change (length (y :: c)) with (S n). rewrite P_SS.
  rewrite (Sm_ext _ _ (fun v => y * y + (2 * y) * dot v c + dot v c * dot v c)) by (intros; rewrite dot_true; ring).
  rewrite !Sm_plus, Sm_const, Sm_scale.
  rewrite (Sm_ext (splits n (S k)) _ (fun v => dot v c * dot v c)) by (intros; rewrite dot_false; ring).
  rewrite N_SS. assert (R := N_ratio n k). assert (H1 := IH k). assert (H2 := IH (S k)).
  change (total (y :: c)) with (y + total c). change (squares (y :: c)) with (y * y + squares c).
  set (a := N n k) in *. set (b := N n (S k)) in *. set (Y := total c) in *. set (Q := squares c) in *.
  set (s := Sm (splits n k) (fun v => dot v c)) in *.
  set (t := Sm (splits n k) (fun v => dot v c * dot v c)) in *. set (t' := Sm (splits n (S k)) (fun v => dot v c * dot v c)) in *.
  assert (Pk : 0 <= INR k) by apply pos_INR.
  assert (En : length c = n) by reflexivity. clearbody n. clear IH. destruct n as [|[|m0]].
  - assert (EC : c = []) by (destruct c; [reflexivity|discriminate]). assert (EY : Y = 0) by (unfold Y; subst c; reflexivity). assert (EQ : Q = 0) by (unfold Q; subst c; reflexivity).
    rewrite EY, EQ. rewrite !S_INR. change (INR 0) with 0. ring.
  - destruct c as [|z [|? ?]]; try discriminate. assert (EY : Y = z) by (unfold Y; cbn; ring). assert (EQ : Q = z * z) by (unfold Q, squares; cbn; ring).
    clear H1 H2 F1. unfold s, t, t', a, b in *. rewrite EY, EQ.
    destruct k as [|[|k]]; [| |].
    + unfold Sm, dot. cbn. ring.
    + unfold Sm, dot. cbn. ring.
    + unfold Sm. cbn. ring.
  - set (m := S (S m0)) in *. assert (Pm : 2 <= INR m) by (unfold m; rewrite !S_INR; assert (0 <= INR m0) by apply pos_INR; lra).
    rewrite !(S_INR m), !(S_INR k) in *.
    assert (s = INR k * a * Y / INR m) as -> by (apply (Rmult_eq_reg_l (INR m)); [rewrite F1; field; lra|lra]).
    assert (t = a * (INR k * (INR m - INR k) * Q + INR k * (INR k - 1) * (Y * Y)) / (INR m * (INR m - 1))) as ->
      by (apply (Rmult_eq_reg_l (INR m * (INR m - 1))); [rewrite H1; field; lra|apply Rmult_integral_contrapositive_currified; lra]).
    assert (t' = b * ((INR k + 1) * (INR m - (INR k + 1)) * Q + (INR k + 1) * (INR k + 1 - 1) * (Y * Y)) / (INR m * (INR m - 1))) as ->
      by (apply (Rmult_eq_reg_l (INR m * (INR m - 1))); [rewrite H2; field; lra|apply Rmult_integral_contrapositive_currified; lra]).
    assert (b = (INR m - INR k) * a / (INR k + 1)) as -> by (apply (Rmult_eq_reg_l (INR k + 1)); [rewrite R; field; lra|lra]).
    field. lra.
Qed.

(** *** Both arms *)
Lemma picked_length {A} v : forall xs : list A, length v = length xs -> length (picked v xs) = treated_in v.
Proof.
  induction v as [|b v IH]; intros [|x xs] E; try reflexivity; try discriminate. injection E as E. specialize (IH xs E).
  unfold picked, treated_in in *. destruct b; cbn; congruence.
Qed.
Lemma treated_negb v : (treated_in (map negb v) + treated_in v)%nat = length v.
Proof. induction v as [|[] v IH]; [reflexivity| |]; unfold treated_in in *; cbn in *; lia. Qed.
Lemma dot_negb v : forall xs, length v = length xs -> dot (map negb v) xs = total xs - dot v xs.
Proof.
  induction v as [|b v IH]; intros [|x xs] E; try discriminate; [unfold dot, total; cbn; ring|]. injection E as E. specialize (IH xs E).
  cbn [map]. change (total (x :: xs)) with (x + total xs). destruct b; cbn [negb]; rewrite dot_true, dot_false, IH; ring.
Qed.
Lemma squares_picked v : forall xs, squares (picked v xs) = dot v (map (fun x => x * x) xs).
Proof.
  induction v as [|b v IH]; intros [|x xs]; try reflexivity; try (destruct b; reflexivity). specialize (IH xs). destruct b.
  - cbn [map]. rewrite dot_true, <- IH. reflexivity.
  - cbn [map]. rewrite dot_false, <- IH. reflexivity.
Qed.
Lemma sqdev_squares l : l <> [] -> sqdev l = squares l - total l * total l / INR (length l).
Proof.
  intros H. assert (P : 0 < INR (length l)) by (apply (lt_INR 0); destruct l; [congruence|cbn; lia]).
  assert (G : forall a, total (map (fun x => (x - a) ^ 2) l) = squares l - 2 * a * total l + INR (length l) * (a * a)).
  { intros a. clear. unfold squares. induction l as [|x l IH]; [cbn; ring|]. cbn [length map]. rewrite S_INR.
    change (total ((x - a) ^ 2 :: map (fun y => (y - a) ^ 2) l)) with ((x - a) ^ 2 + total (map (fun y => (y - a) ^ 2) l)).
    change (total (x * x :: map (fun y => y * y) l)) with (x * x + total (map (fun y => y * y) l)). change (total (x :: l)) with (x + total l). rewrite IH. ring. }
  unfold sqdev. rewrite G. unfold avg. field. lra.
Qed.

Section both.
Context (n k : nat) (K1 : (1 <= k)%nat) (K2 : (k < n)%nat).
Let Rk : 1 <= INR k.
Proof. apply (le_INR 1). exact K1. Qed.
Let Rn : INR k + 1 <= INR n.
Proof. rewrite <- S_INR. apply le_INR. lia. Qed.
Let PN : 0 < N n k.
Proof. apply N_pos. lia. Qed.

Lemma first c : length c = n -> Sm (splits n k) (fun v => dot v c) = N n k * (INR k * total c / INR n).
Proof. intros E. assert (H := first_moment c k). rewrite E in H. apply (Rmult_eq_reg_l (INR n)); [rewrite H; field; lra|lra]. Qed.
Lemma second c : length c = n -> Sm (splits n k) (fun v => dot v c * dot v c) =
  N n k * ((INR k * (INR n - INR k) * squares c + INR k * (INR k - 1) * (total c * total c)) / (INR n * (INR n - 1))).
Proof.
  intros E. assert (H := second_moment c k). rewrite E in H. apply (Rmult_eq_reg_l (INR n * (INR n - 1)));
    [rewrite H; field; lra|apply Rmult_integral_contrapositive_currified; lra].
Qed.
Lemma arm_length (c : list R) v : length c = n -> In v (splits n k) -> length (picked v c) = k /\ length (picked (map negb v) c) = (n - k)%nat.
Proof.
  intros E H. apply in_splits in H as [H1 H2]. split; [rewrite picked_length; congruence|]. rewrite picked_length by (rewrite map_length; congruence).
  assert (X := treated_negb v). lia.
Qed.
Lemma nonempty {A} (l : list A) m : length l = m -> (0 < m)%nat -> l <> [].
Proof. intros E H ->. cbn in E. lia. Qed.
Lemma total_squares c : total (map (fun x => x * x) c) = squares c.
Proof. reflexivity. Qed.

Lemma deviations_treated c : length c = n -> Sm (splits n k) (fun v => sqdev (picked v c)) = N n k * ((INR k - 1) / (INR n - 1) * sqdev c).
Proof.
  intros E. rewrite (Sm_ext _ _ (fun v => dot v (map (fun x => x * x) c) - / INR k * (dot v c * dot v c))).
  2: { intros v Hv. destruct (arm_length c v E Hv) as [L _]. rewrite sqdev_squares by (apply (nonempty _ k); [exact L|lia]). rewrite L, squares_picked. unfold Rdiv, dot. ring. }
  rewrite Sm_minus, Sm_scale, first, second by (rewrite ?map_length; exact E).
  rewrite (sqdev_squares c) by (apply (nonempty _ n); [exact E|lia]). rewrite E, total_squares. field. lra.
Qed.
Lemma deviations_control c : length c = n -> Sm (splits n k) (fun v => sqdev (picked (map negb v) c)) = N n k * ((INR n - INR k - 1) / (INR n - 1) * sqdev c).
Proof.
  intros E. assert (EI : INR (n - k) = INR n - INR k) by (apply minus_INR; lia).
  rewrite (Sm_ext _ _ (fun v => (squares c - total c * total c / (INR n - INR k)) - dot v (map (fun x => x * x) c) +
    (2 * total c / (INR n - INR k)) * dot v c - / (INR n - INR k) * (dot v c * dot v c))).
  2: { intros v Hv. destruct (arm_length c v E Hv) as [_ L]. rewrite sqdev_squares by (apply (nonempty _ (n - k)%nat); [exact L|lia]). apply in_splits in Hv as [Hv _].
    rewrite L, squares_picked, EI. fold (dot (map negb v) c). rewrite !dot_negb by (rewrite ?map_length; congruence). rewrite total_squares. field. lra. }
  rewrite Sm_minus, Sm_plus, Sm_minus, !Sm_scale, Sm_const, !first, second by (rewrite ?map_length; exact E).
  rewrite (sqdev_squares c) by (apply (nonempty _ n); [exact E|lia]). rewrite E, total_squares. field. lra.
Qed.

Lemma total_lin a b : forall l : list (R * R), total (map (fun x => a * fst x + b * snd x) l) = a * total (map fst l) + b * total (map snd l).
Proof. induction l as [|x l IH]; [cbn; ring|]. unfold total in *. cbn [map fold_right]. rewrite IH. ring. Qed.
Definition products (l : list (R * R)) : R := total (map (fun x => fst x * snd x) l).
Lemma squares_lin a b (l : list (R * R)) : squares (map (fun x => a * fst x + b * snd x) l) =
  a * a * squares (map fst l) + 2 * a * b * products l + b * b * squares (map snd l).
Proof. unfold squares, products. rewrite !map_map. induction l as [|x l IH]; [cbn; ring|]. unfold total in *. cbn [map fold_right]. rewrite IH. ring. Qed.
Lemma dot_lin a b v : forall l : list (R * R), dot v (map (fun x => a * fst x + b * snd x) l) = a * dot v (map fst l) + b * dot v (map snd l).
Proof.
  induction v as [|c v IH]; intros [|x l]; try (unfold dot, total; cbn; ring); try (unfold dot, total; destruct c; cbn; ring).
  cbn [map]. destruct c; rewrite ?dot_true, ?dot_false, IH; ring.
Qed.

(** treatment less control *)
Definition contrast (l : list (R * R)) (v : list bool) : R := avg (picked v (map fst l)) - avg (picked (map negb v) (map snd l)).
Definition effect (l : list (R * R)) : R := avg (map fst l) - avg (map snd l).

Lemma contrast_linear l v : length l = n -> In v (splits n k) ->
  contrast l v = dot v (map (fun x => / INR k * fst x + / (INR n - INR k) * snd x) l) - total (map snd l) / (INR n - INR k).
Proof.
  intros E Hv. assert (EI : INR (n - k) = INR n - INR k) by (apply minus_INR; lia).
  destruct (arm_length (map fst l) v ltac:(rewrite map_length; exact E) Hv) as [L1 _].
  destruct (arm_length (map snd l) v ltac:(rewrite map_length; exact E) Hv) as [_ L0]. apply in_splits in Hv as [Hv _].
  unfold contrast, avg. rewrite L1, L0, EI. fold (dot (map negb v) (map snd l)) (dot v (map fst l)).
  rewrite dot_negb by (rewrite map_length; congruence). rewrite dot_lin. field. lra.
Qed.

Lemma contrast_mean l : length l = n -> Sm (splits n k) (contrast l) = N n k * effect l.
Proof.
  intros E. rewrite (Sm_ext _ _ _ (fun v Hv => contrast_linear l v E Hv)). rewrite Sm_minus, Sm_const, first by (rewrite map_length; exact E).
  rewrite total_lin. unfold effect, avg. rewrite !map_length, E. field. lra.
Qed.

Lemma contrast_variance l : length l = n ->
  Sm (splits n k) (fun v => (contrast l v - effect l) ^ 2) =
  N n k * (sqdev (map fst l) / (INR n - 1) / INR k + sqdev (map snd l) / (INR n - 1) / (INR n - INR k) -
           sqdev (map (fun x => fst x - snd x) l) / (INR n * (INR n - 1))).
Proof.
  intros E. set (c := map (fun x => / INR k * fst x + / (INR n - INR k) * snd x) l).
  set (z := total (map snd l) / (INR n - INR k) + effect l).
  rewrite (Sm_ext _ _ (fun v => dot v c * dot v c - (2 * z) * dot v c + z * z)).
  2: { intros v Hv. rewrite (contrast_linear l v E Hv). fold c. unfold z. ring. }
  assert (EC : length c = n) by (unfold c; rewrite map_length; exact E).
  rewrite Sm_plus, Sm_minus, Sm_scale, Sm_const, first, second by exact EC.
  unfold c. rewrite total_lin, squares_lin.
  replace (map (fun x : R * R => fst x - snd x) l) with (map (fun x : R * R => 1 * fst x + (-1) * snd x) l) by (apply map_ext; intros; ring).
  assert (NL : forall f : R * R -> R, map f l <> []) by (intros f; apply (nonempty _ n); [rewrite map_length; exact E|lia]).
  rewrite !sqdev_squares by apply NL. rewrite !map_length, E, squares_lin, total_lin. unfold z, effect, avg. rewrite !map_length, E. field. lra.
Qed.
End both.
