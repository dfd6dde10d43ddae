(** Lemmas for C94: order statistics by counting, and the moments of a trimmed row whose kept
    values are finite. *)
From Coq Require Import ZArith Reals Lra Lia List Bool Permutation Sorting.Sorted.
From Flocq Require Import Core BinarySingleNaN.
Require Import Verif.Base Verif.Num Verif.NumOrd Verif.F64 Verif.ListLib
  Verif.Assign_Proofs Verif.Trimmed_Model Verif.Trimmed_Spec Verif.Moments Verif.Trimmed_Proofs Verif.Trimmed_Real
  Verif.Trimmed_Props.
Import ListNotations.
Open Scope R_scope.

Definition cnt {A} (p : A -> bool) (l : list A) : nat := length (filter p l).

Lemma cnt_app {A} (p : A -> bool) l m : cnt p (l ++ m) = (cnt p l + cnt p m)%nat.
Proof. unfold cnt. now rewrite filter_app, app_length. Qed.
Lemma cnt_perm {A} (p : A -> bool) l m : Permutation l m -> cnt p l = cnt p m.
Proof.
  unfold cnt. induction 1 as [|x l m H IH|x y l|l m o H1 IH1 H2 IH2]; simpl; try congruence.
  - destruct (p x); simpl; congruence.
  - destruct (p x), (p y); reflexivity.
Qed.
Lemma cnt_all {A} (p : A -> bool) l : (forall x, In x l -> p x = true) -> cnt p l = length l.
Proof. intros H. unfold cnt. now rewrite filter_all. Qed.

(** few bad positions, few bad values *)
Lemma cnt_bad {A} (p : A -> bool) (d : A) l bad :
  (forall i, (i < length l)%nat -> ~ In i bad -> p (nth i l d) = false) -> (cnt p l <= length bad)%nat.
Proof.
  intros H.
  assert (E : filter p l = map (fun i => nth i l d) (filter (fun i => p (nth i l d)) (seq 0 (length l)))).
  { transitivity (filter p (map (fun i => nth i l d) (seq 0 (length l)))); [now rewrite map_nth_seq|].
    generalize (seq 0 (length l)). intros s. induction s as [|i s IH]; simpl; auto.
    destruct (p (nth i l d)); simpl; congruence. }
  unfold cnt. rewrite E, map_length. apply NoDup_incl_length; [apply NoDup_filter, seq_NoDup|].
  intros i Hi. apply filter_In in Hi as [Hi Hp]. apply in_seq in Hi.
  destruct (in_dec Nat.eq_dec i bad) as [|N]; auto. rewrite H in Hp by (auto; lia). discriminate.
Qed.

Lemma middle_in_split {A} k (s : list A) x : (2 * k <= length s)%nat -> In x (middle k s) ->
  exists l1 l2, s = (l1 ++ x :: l2)%list /\ (k <= length l1)%nat /\ (k <= length l2)%nat.
Proof.
  intros H HI. apply in_split in HI as (a & b & E).
  exists (firstn k s ++ a)%list, (b ++ skipn (length s - k) s)%list. split; [|split].
  - rewrite (middle_split k s H) at 1. rewrite E. rewrite <- !app_assoc. reflexivity.
  - rewrite app_length, firstn_length. lia.
  - rewrite app_length, skipn_length. lia.
Qed.

Lemma sorted_split {A} (R : A -> A -> Prop) l1 x l2 : StronglySorted R (l1 ++ x :: l2) ->
  (forall y, In y l1 -> R y x) /\ (forall y, In y l2 -> R x y).
Proof.
  induction l1 as [|a l1 IH]; simpl; intros S; inversion S as [|? ? S1 S2]; subst; rewrite Forall_forall in S2.
  - split; [intros y []|exact S2].
  - destruct (IH S1) as [A1 A2]. split; auto. intros y [<-|Hy]; auto. apply S2, in_or_app. right. now left.
Qed.

(** a property that goes up and fails for at most k values holds for the middle; likewise one
    that goes down *)
Lemma middle_up {A} (R : A -> A -> Prop) (p : A -> bool) k l s x :
  Permutation l s -> StronglySorted R s -> (2 * k <= length s)%nat ->
  (forall a b, R a b -> p a = true -> p b = true) ->
  (cnt (fun a => negb (p a)) l <= k)%nat -> In x (middle k s) -> p x = true.
Proof.
  intros P S HK HU HC HI. destruct (middle_in_split k s x HK HI) as (l1 & l2 & E & L1 & L2).
  subst s. apply sorted_split in S as [S1 S2]. destruct (p x) eqn:Ex; auto.
  rewrite (cnt_perm _ _ _ P) in HC. change (x :: l2)%list with ([x] ++ l2)%list in HC. rewrite !cnt_app in HC.
  rewrite (cnt_all _ l1) in HC. { unfold cnt at 1 in HC. simpl in HC. rewrite Ex in HC. simpl in HC. lia. }
  intros y Hy. apply negb_true_iff. destruct (p y) eqn:Ey; auto. rewrite (HU y x) in Ex; auto.
Qed.
Lemma middle_down {A} (R : A -> A -> Prop) (p : A -> bool) k l s x :
  Permutation l s -> StronglySorted R s -> (2 * k <= length s)%nat ->
  (forall a b, R a b -> p b = true -> p a = true) ->
  (cnt (fun a => negb (p a)) l <= k)%nat -> In x (middle k s) -> p x = true.
Proof.
  intros P S HK HU HC HI. destruct (middle_in_split k s x HK HI) as (l1 & l2 & E & L1 & L2).
  subst s. apply sorted_split in S as [S1 S2]. destruct (p x) eqn:Ex; auto.
  rewrite (cnt_perm _ _ _ P) in HC. change (x :: l2)%list with ([x] ++ l2)%list in HC. rewrite !cnt_app in HC.
  rewrite (cnt_all _ l2) in HC. { unfold cnt at 2 in HC. simpl in HC. rewrite Ex in HC. simpl in HC. lia. }
  intros y Hy. apply negb_true_iff. destruct (p y) eqn:Ey; auto. rewrite (HU x y) in Ex; auto.
Qed.

(** sorting keeps a pointwise order *)
Lemma cnt_le_mono xs ys c : Forall2 Rle xs ys ->
  (cnt (fun y => Rle_bool y c) ys <= cnt (fun x => Rle_bool x c) xs)%nat.
Proof.
  unfold cnt. induction 1 as [|x y xs ys H _ IH]; simpl; auto.
  case (Rle_bool_spec y c); case (Rle_bool_spec x c); intros; simpl; try lia. lra.
Qed.

Lemma split_at {A} (s : list A) i d : (i < length s)%nat ->
  s = (firstn i s ++ nth i s d :: skipn (S i) s)%list.
Proof.
  revert i. induction s as [|a s IH]; intros [|i] H; simpl in *; try lia; auto.
  f_equal. apply IH. lia.
Qed.

Lemma sorted_pointwise xs ys s r i : Forall2 Rle xs ys ->
  Permutation xs s -> StronglySorted Rle s -> Permutation ys r -> StronglySorted Rle r ->
  (i < length s)%nat -> nth i s 0 <= nth i r 0.
Proof.
  intros F Ps Ss Pr Sr Hi.
  assert (L : length s = length r).
  { rewrite <- (Permutation_length Ps), <- (Permutation_length Pr). clear -F. induction F; simpl; congruence. }
  apply Rnot_lt_le. intros C.
  assert (K := cnt_le_mono xs ys (nth i r 0) F).
  rewrite (cnt_perm _ _ _ Ps), (cnt_perm _ _ _ Pr) in K.
  assert (Er := split_at r i 0 ltac:(lia)). assert (Es := split_at s i 0 Hi).
  assert (Lr : length (firstn i r) = i) by (rewrite firstn_length; lia).
  assert (Lf : length (firstn i s) = i) by (rewrite firstn_length; lia).
  set (c := nth i r 0) in *. set (e := nth i s 0) in *.
  rewrite Er in K, Sr. rewrite Es in K, Ss. clear Er Es.
  apply sorted_split in Sr as [S1 _]. apply sorted_split in Ss as [_ S2].
  rewrite !cnt_app in K. rewrite (cnt_all _ (firstn i r)), Lr in K by (intros y Hy; apply Rle_bool_true; auto).
  assert (A : (1 <= cnt (fun y => Rle_bool y c) (c :: skipn (S i) r))%nat).
  { unfold cnt. cbn [filter]. rewrite Rle_bool_true by lra. simpl. lia. }
  assert (B : cnt (fun x => Rle_bool x c) (e :: skipn (S i) s) = 0%nat).
  { unfold cnt. rewrite filter_none; auto. intros y [<-|Hy]; apply Rle_bool_false; auto. apply S2 in Hy. lra. }
  assert (D : (cnt (fun x => Rle_bool x c) (firstn i s) <= i)%nat).
  { rewrite <- Lf at 2. unfold cnt. generalize (firstn i s). clear.
    induction l as [|a l IH]; simpl; [lia|]. destruct (Rle_bool a c); simpl; lia. }
  lia.
Qed.

Lemma Forall2_nth_le (l m : list R) : length l = length m ->
  (forall i, (i < length l)%nat -> nth i l 0 <= nth i m 0) -> Forall2 Rle l m.
Proof.
  revert m. induction l as [|a l IH]; intros [|b m] L H; simpl in *; try lia; constructor.
  - exact (H 0%nat ltac:(lia)).
  - apply IH; [lia|]. intros i Hi. exact (H (S i) ltac:(lia)).
Qed.
Lemma Forall2_firstn {A B} (R : A -> B -> Prop) n l m : Forall2 R l m -> Forall2 R (firstn n l) (firstn n m).
Proof. intros H. revert n. induction H; intros [|n]; simpl; constructor; auto. Qed.
Lemma Forall2_skipn {A B} (R : A -> B -> Prop) n l m : Forall2 R l m -> Forall2 R (skipn n l) (skipn n m).
Proof. intros H. revert n. induction H; intros [|n]; simpl; auto. Qed.
Lemma Forall2_len {A B} (R : A -> B -> Prop) l m : Forall2 R l m -> length l = length m.
Proof. induction 1; simpl; congruence. Qed.
Lemma Forall2_middle (R : R -> R -> Prop) k l m : Forall2 R l m -> Forall2 R (middle k l) (middle k m).
Proof. intros H. unfold middle. rewrite (Forall2_len _ _ _ H). now apply Forall2_firstn, Forall2_skipn. Qed.

Lemma total_mono l m : Forall2 Rle l m -> total l <= total m.
Proof. unfold total. induction 1; simpl; lra. Qed.
Lemma avg_mono l m : Forall2 Rle l m -> avg l <= avg m.
Proof.
  intros H. unfold avg. rewrite (Forall2_len _ _ _ H). destruct m as [|b m]; [inversion H; subst; lra|].
  apply Rmult_le_compat_r; [|now apply total_mono].
  apply Rlt_le, Rinv_0_lt_compat, lt_0_INR. simpl. lia.
Qed.
Lemma total_bounds l lo hi : (forall x, In x l -> lo <= x <= hi) ->
  INR (length l) * lo <= total l <= INR (length l) * hi.
Proof.
  induction l as [|a l IH]; intros H; [simpl; lra|].
  assert (A := H a (or_introl eq_refl)). assert (B := IH (fun x Hx => H x (or_intror Hx))).
  cbn [length]. rewrite S_INR. change (total (a :: l)) with (a + total l). lra.
Qed.
Lemma avg_bounds l lo hi : l <> [] -> (forall x, In x l -> lo <= x <= hi) -> lo <= avg l <= hi.
Proof.
  intros HN H. assert (B := total_bounds l lo hi H). unfold avg.
  assert (P : 0 < INR (length l)) by (apply lt_0_INR; destruct l; [congruence|simpl; lia]).
  split; [apply Rmult_le_reg_r with (INR (length l))|apply Rmult_le_reg_r with (INR (length l))]; auto;
    unfold Rdiv; rewrite Rmult_assoc, Rinv_l, Rmult_1_r by lra; lra.
Qed.

(** deviations from the average are the smallest *)
Lemma sqdev_center l c : l <> [] -> sqdev l <= total (map (fun x => (x - c) ^ 2) l).
Proof.
  intros HN.
  assert (P : 0 < INR (length l)) by (apply lt_0_INR; destruct l; [congruence|simpl; lia]).
  assert (E : forall m : list R, total (map (fun x => (x - c) ^ 2) m) =
    total (map (fun x => (x - avg l) ^ 2) m) + 2 * (avg l - c) * (total m - INR (length m) * avg l) + INR (length m) * (avg l - c) ^ 2).
  { induction m as [|a m IH]; [simpl; ring|]. cbn [length]. rewrite S_INR.
    change (total (map (fun x => (x - c) ^ 2) (a :: m))) with ((a - c) ^ 2 + total (map (fun x => (x - c) ^ 2) m)).
    change (total (map (fun x => (x - avg l) ^ 2) (a :: m))) with ((a - avg l) ^ 2 + total (map (fun x => (x - avg l) ^ 2) m)).
    change (total (a :: m)) with (a + total m). rewrite IH. ring. }
  rewrite E. unfold sqdev.
  replace (total l - INR (length l) * avg l) with 0 by (unfold avg; field; lra).
  generalize (pow2_ge_0 (avg l - c)). nra.
Qed.
Lemma sqdev_range l lo hi : l <> [] -> (forall x, In x l -> lo <= x <= hi) ->
  0 <= sqdev l <= INR (length l) * ((hi - lo) / 2) ^ 2.
Proof.
  intros HN H. split; [apply sqdev_nonneg|].
  eapply Rle_trans; [apply (sqdev_center l ((lo + hi) / 2)); auto|].
  assert (G := total_bounds (map (fun x => (x - (lo + hi) / 2) ^ 2) l) 0 (((hi - lo) / 2) ^ 2)).
  rewrite map_length in G. apply G. intros y Hy. apply in_map_iff in Hy as (x & <- & Hx). apply H in Hx.
  split; [apply pow2_ge_0|]. nra.
Qed.

(** the moments of a first row whose kept values are finite *)
Section Kept_finite.
Context (argsort : list num -> list nat) (t : tarray) (vs : list R) (n k : nat).
Context (rest : list (list num)) (HV : values_trimmed argsort t = map Fin vs :: rest) (HN : vs <> []).
Context (HK : t_k t = k) (HZ : t_size t = n) (HL : (n = length vs + 2 * k)%nat) (HR : (0 < length (t_rows t))%nat).

Lemma kept_ends : exists lo hi, least vs lo /\ greatest vs hi /\
  min_value argsort t (map Fin vs) = Fin lo /\ max_value argsort t (map Fin vs) = Fin hi.
Proof.
  destruct (argmin_spec vs HN) as [A1 A2]. destruct (argmax_spec vs HN) as [B1 B2].
  exists (nth (argmin (map Fin vs)) vs 0), (nth (argmax (map Fin vs)) vs 0).
  split; [exact A2|]. split; [exact B2|]. unfold min_value, max_value. rewrite HV. cbn [hd].
  rewrite !(nth_indep (map Fin vs) NaN (Fin 0)) by (rewrite map_length; auto). now rewrite !map_nth.
Qed.

Lemma kept_mean : hd NaN (t_mean argsort t) = Fin (avg vs).
Proof.
  unfold t_mean. rewrite HV. cbn [map hd]. rewrite map_length, nsum_Fin.
  apply ndiv_fin. apply not_0_INR. destruct vs; [congruence|simpl; lia].
Qed.

Lemma total_repeat x j : total (repeat x j) = INR j * x.
Proof. induction j as [|j IH]; [simpl; ring|]. cbn [repeat]. rewrite S_INR. change (total (x :: repeat x j)) with (x + total (repeat x j)). rewrite IH. ring. Qed.
Lemma total_app' l m : total (l ++ m) = total l + total m.
Proof. induction l as [|a l IH]; [simpl; ring|]. change (a + total (l ++ m) = a + total l + total m). rewrite IH. ring. Qed.

Lemma kept_moments ddof : (ddof < Z.of_nat (length vs))%Z ->
  exists lo hi, least vs lo /\ greatest vs hi /\
    let W := (vs ++ repeat lo k ++ repeat hi k)%list in
    hd NaN (winsorized_mean argsort t) = Fin (avg W) /\
    hd NaN (t_var argsort t ddof) = Fin (sqdev W / IZR (Z.of_nat (length vs) - ddof)).
Proof.
  intros HD. destruct kept_ends as (lo & hi & Hlo & Hhi & Emin & Emax).
  exists lo, hi. split; [auto|]. split; [auto|]. intros W.
  assert (LW : length W = n) by (unfold W; rewrite !app_length, !repeat_length; lia).
  assert (PN : INR n <> 0). { apply not_0_INR. destruct vs; [congruence|simpl in *; lia]. }
  assert (EW : wmean_of argsort t (map Fin vs) = Fin (avg W)).
  { unfold wmean_of. rewrite Emin, Emax, HK, HZ, nsum_Fin. cbn [nadd nmul].
    rewrite ndiv_fin by auto. f_equal. unfold avg. rewrite LW. f_equal. unfold W. rewrite !total_app', !total_repeat. fold (total vs). unfold total. ring. }
  split; [unfold winsorized_mean; rewrite HV; cbn [map hd]; now rewrite EW|].
  unfold t_var. destruct (length (t_rows t)) as [|j]; [lia|]. cbn [seq map hd]. unfold t_cov. rewrite HV. cbn [map nth].
  unfold cov_of. rewrite EW, Emin, Emax, HK.
  assert (LEN : t_len argsort t = length vs) by (unfold t_len; rewrite HV; cbn [hd]; apply map_length). rewrite LEN.
  rewrite map_map.
  assert (ED : ndot (map (fun x => nsub (Fin x) (Fin (avg W))) vs) (map (fun x => nsub (Fin x) (Fin (avg W))) vs)
             = Fin (total (map (fun x => (x - avg W) ^ 2) vs))).
  { unfold ndot. rewrite combine_map2, map_map, <- nsum_Fin. f_equal. rewrite map_map. apply map_ext.
    intros x. cbn. f_equal. ring. }
  rewrite ED. cbn [nsub nneg nadd nmul].
  assert (PD : IZR (Z.of_nat (length vs) - ddof) <> 0) by (apply not_0_IZR; lia).
  rewrite ndiv_fin by auto. f_equal. f_equal. unfold sqdev.
  set (w := avg W). unfold W. rewrite !map_app, !total_app'.
  assert (RP : forall (f : R -> R) x j, map f (repeat x j) = repeat (f x) j) by (clear; intros f x j; induction j; simpl; congruence).
  rewrite !RP, !total_repeat. ring.
Qed.
End Kept_finite.
