From Coq Require Import ZArith NArith Reals List String Bool Permutation Sorting.Sorted Lia Lra.
From Flocq Require Import Core BinarySingleNaN Relative.
Require Import Verif.Base Verif.Num Verif.NumOrd Verif.F64 Verif.ListLib Verif.Rank Verif.Design_Model
  Verif.Design_Spec Verif.Design_Proofs Verif.Rows_Model Verif.Checks_Model Verif.Assign_Model Verif.Assign_Spec.
Import ListNotations.

(* ------------------------------------------------------------------ *)
(** the order used by rank(method="first") on shuffled data *)

Section Position_Order.
Variables (v : nat -> num) (order : list nat).

Definition earlier (j i : nat) : bool := existsb (Nat.eqb j) (before_in i order).
Definition pos_before (j i : nat) : bool :=
  orb (nltb (v i) (v j)) (andb (neqb (v i) (v j)) (earlier j i)).

Lemma before_in_prefix i l : exists r, l = (before_in i l ++ r)%list /\ (In i l -> exists r', r = i :: r').
Proof.
  induction l as [|j l (r & E & H)]; simpl.
  - exists []. split; auto. tauto.
  - destruct (Nat.eqb_spec i j) as [->|N].
    + exists (j :: l). split; auto. intros _. now exists l.
    + exists r. split; [simpl; congruence|]. intros [->|K]; [congruence|auto].
Qed.

Lemma earlier_In j i : earlier j i = true <-> In j (before_in i order).
Proof.
  unfold earlier. rewrite existsb_exists. split.
  - intros (x & Hx & E). apply Nat.eqb_eq in E. now subst.
  - intros H. exists j. split; auto. apply Nat.eqb_refl.
Qed.

Hypothesis ND : NoDup order.

Lemma earlier_filter B i :
  filter (fun j => andb (B j) (earlier j i)) order = filter B (before_in i order).
Proof.
  destruct (before_in_prefix i order) as (r & E & _).
  assert (F1 : forall j, In j (before_in i order) -> earlier j i = true) by (intros; now apply earlier_In).
  assert (F2 : forall j, In j r -> earlier j i = false).
  { intros j Hj. destruct (earlier j i) eqn:K; auto. apply earlier_In in K. rewrite E in ND.
    clear - ND Hj K. induction (before_in i order) as [|a l IH]; [destruct K|].
    simpl in ND. inversion ND; subst. destruct K as [->|K]; auto. exfalso. apply H1. apply in_or_app. now right. }
  rewrite E at 1. rewrite filter_app. rewrite (filter_none _ r); [|intros j Hj; rewrite F2 by auto; apply andb_false_r].
  rewrite app_nil_r. apply filter_ext_in. intros j Hj. rewrite F1 by auto. apply andb_true_r.
Qed.

Lemma before_rank i : v i <> NaN ->
  rank_first v order i = Some (1 + Z.of_nat (rank pos_before order i))%Z.
Proof.
  intros Hv. unfold rank_first. rewrite (proj2 (nis_nan_iff _) Hv). f_equal. rewrite <- Z.add_assoc. f_equal.
  rewrite <- Nat2Z.inj_add. f_equal. rewrite <- (earlier_filter (fun j => neqb (v i) (v j))). unfold rank, pos_before.
  assert (G : forall l, (List.length (filter (fun j => nltb (v i) (v j)) l) +
    List.length (filter (fun j => neqb (v i) (v j) && earlier j i) l))%nat =
    List.length (filter (fun y => nltb (v i) (v y) || neqb (v i) (v y) && earlier y i) l)).
  { induction l as [|j l IH]; simpl; auto.
    destruct (nltb (v i) (v j)) eqn:L; simpl.
    - destruct (neqb (v i) (v j)) eqn:Q; simpl; [|now rewrite <- IH].
      apply neqb_eq in Q. rewrite Q, nltb_irrefl in L. discriminate.
    - destruct (neqb (v i) (v j) && earlier j i); simpl; rewrite <- IH; lia. }
  apply G.
Qed.

Lemma earlier_irrefl i : earlier i i = false.
Proof.
  destruct (earlier i i) eqn:E; auto. apply earlier_In in E. exfalso. revert E.
  induction order as [|j l IH]; simpl; auto. destruct (Nat.eqb_spec i j); simpl; auto.
  inversion ND; subst. intros [->|]; auto.
Qed.

Lemma earlier_total i j : In i order -> In j order -> i <> j -> earlier i j = true \/ earlier j i = true.
Proof.
  rewrite !earlier_In. clear. induction order as [|a l IH]; simpl; [tauto|].
  intros Hi Hj N. destruct (Nat.eqb_spec j a) as [->|Nj], (Nat.eqb_spec i a) as [->|Ni]; simpl; try congruence; auto.
  destruct Hi as [->|Hi]; [congruence|]. destruct Hj as [->|Hj]; [congruence|]. destruct IH; auto.
Qed.

Lemma earlier_trans i j k : earlier i j = true -> earlier j k = true -> earlier i k = true.
Proof.
  rewrite !earlier_In. clear v. induction order as [|a l IH]; simpl; auto.
  inversion ND as [|? ? Ha ND']; subst.
  destruct (Nat.eqb_spec j a) as [->|Nj]; simpl; [tauto|].
  destruct (Nat.eqb_spec k a) as [->|Nk]; simpl; [tauto|].
  intros [->|Hi] [->|Hj]; auto. congruence.
Qed.

Lemma pos_strict : (forall i, In i order -> v i <> NaN) -> strict_on pos_before order.
Proof.
  intros HV. unfold pos_before. constructor.
  - intros i Hi. rewrite nltb_irrefl, earlier_irrefl, andb_false_r. reflexivity.
  - intros x y z Hx Hy Hz H1 H2. apply orb_true_iff in H1, H2. apply orb_true_iff.
    destruct H1 as [H1|H1], H2 as [H2|H2].
    + left. eapply nltb_trans; eauto.
    + apply andb_true_iff in H2 as [H2 _]. apply neqb_eq in H2. left. now rewrite H2.
    + apply andb_true_iff in H1 as [H1 _]. apply neqb_eq in H1. left. now rewrite <- H1.
    + apply andb_true_iff in H1 as [H1 E1], H2 as [H2 E2]. apply neqb_eq in H1, H2. right.
      rewrite H2, <- H1. rewrite neqb_refl by (rewrite H1; auto). simpl. eapply earlier_trans; eauto.
  - intros x y Hx Hy N. destruct (nltb_total (v x) (v y)) as [K|[K|K]]; auto.
    + right. now rewrite K.
    + rewrite K, nltb_irrefl, neqb_refl by auto. simpl. destruct (earlier_total x y); auto.
    + left. now rewrite K.
Qed.

Lemma pos_before_le i j : v i <> NaN -> pos_before i j = true -> nleb (v j) (v i) = true.
Proof.
  intros Hi H. apply orb_true_iff in H as [H|H]; [now apply nltb_nleb|].
  apply andb_true_iff in H as [H _]. apply neqb_eq in H. rewrite H. now apply nleb_refl.
Qed.
End Position_Order.

(* ------------------------------------------------------------------ *)
Lemma combine_seq {A} (d : A) l : combine (seq 0 (List.length l)) l = map (fun i => (i, nth i l d)) (seq 0 (List.length l)).
Proof.
  assert (G : forall k, combine (seq k (List.length l)) l = map (fun i => (i, nth (i - k) l d)) (seq k (List.length l))).
  { induction l as [|a l IH]; simpl; auto. intros k. rewrite Nat.sub_diag. f_equal.
    rewrite IH. apply map_ext_in. intros i Hi. apply in_seq in Hi. replace (i - k)%nat with (S (i - S k)) by lia. reflexivity. }
  rewrite G. apply map_ext. intros i. now rewrite Nat.sub_0_r.
Qed.

Lemma map_nth_seq {A} (d : A) l : map (fun i => nth i l d) (seq 0 (List.length l)) = l.
Proof.
  induction l as [|a l IH]; simpl; auto. f_equal. rewrite <- seq_shift, map_map. exact IH.
Qed.

Lemma filter_map_pair {A B} (f : A -> B) (m : A -> bool) l :
  map snd (filter (fun p => m (fst p)) (map (fun i => (i, f i)) l)) = map f (filter m l).
Proof. induction l as [|a l IH]; simpl; auto. destruct (m a); simpl; congruence. Qed.

Lemma loc_rows_eq {A} (d : A) m l : loc_rows m l = map (fun i => nth i l d) (filter m (seq 0 (List.length l))).
Proof. unfold loc_rows. rewrite (combine_seq d). apply filter_map_pair. Qed.

Lemma subseq_filter {A B} (f : A -> B) (m : A -> bool) l : subseq (map f (filter m l)) (map f l).
Proof. induction l as [|a l IH]; simpl; [constructor|]. destruct (m a); simpl; now constructor. Qed.

Lemma subseq_refl {A} (l : list A) : subseq l l.
Proof. induction l; now constructor. Qed.

Lemma subseq_In {A} (l m : list A) x : subseq l m -> In x l -> In x m.
Proof. induction 1; simpl; intuition. Qed.

Lemma subseq_NoDup {A} (l m : list A) : subseq l m -> NoDup m -> NoDup l.
Proof.
  induction 1; auto; intros N; inversion N; subst; auto. constructor; auto.
  intros K. eapply subseq_In in K; eauto.
Qed.

Lemma subseq_map {A B} (f : A -> B) l m : subseq l m -> subseq (map f l) (map f m).
Proof. induction 1; simpl; now constructor. Qed.

Lemma SSorted_app_inv {A} (R : A -> A -> Prop) l m : StronglySorted R (l ++ m) ->
  StronglySorted R l /\ StronglySorted R m /\ forall x y, In x l -> In y m -> R x y.
Proof.
  induction l as [|a l IH]; simpl; intros H.
  - repeat split; auto; [constructor|tauto].
  - inversion H as [|? ? H1 H2]; subst. apply IH in H1 as (A1 & A2 & A3). rewrite Forall_forall in H2.
    repeat split; auto.
    + constructor; auto. apply Forall_forall. intros x Hx. apply H2, in_or_app. now left.
    + intros x y [->|Hx] Hy; auto. apply H2, in_or_app. now right.
Qed.

(** positions whose rank is in [kt, n - kb) *)
Definition kept_pos (v : nat -> num) (order : list nat) (kt kb : Z) (n : nat) (i : nat) : bool :=
  match rank_first v order i with
  | Some r => andb (kt <? r)%Z (r <=? Z.of_nat n - kb)%Z
  | None => false
  end.

Lemma kept_slice v n order kt kb :
  Permutation order (seq 0 n) -> (forall i, (i < n)%nat -> v i <> NaN) ->
  exists s, Permutation (seq 0 n) s /\ StronglySorted (fun a b => pos_before v order a b = true) s /\
    Permutation (filter (kept_pos v order (Z.of_nat kt) (Z.of_nat kb) n) (seq 0 n))
      (firstn (n - kb - kt) (skipn kt s)).
Proof.
  intros P HV.
  assert (ND : NoDup order) by (eapply Permutation_NoDup; [symmetry; exact P|apply seq_NoDup]).
  assert (HV' : forall i, In i order -> v i <> NaN).
  { intros i Hi. apply HV. apply (Permutation_in _ P) in Hi. apply in_seq in Hi. lia. }
  assert (SO := pos_strict v order ND HV').
  assert (SO' : strict_on (pos_before v order) (seq 0 n)).
  { eapply strict_on_incl; [|exact SO]. intros i Hi. eapply Permutation_in; [symmetry; exact P|exact Hi]. }
  destruct (sorted_exists (pos_before v order) (seq 0 n)) as (s & Ps & Ss); auto using seq_NoDup.
  exists s. split; [auto|split;[auto|]].
  rewrite <- (rank_slice (pos_before v order) (seq 0 n) s kt (n - kb)); auto.
  match goal with |- Permutation ?a ?b => replace a with b; [reflexivity|] end.
  apply filter_ext_in. intros i Hi. unfold kept_pos.
  apply in_seq in Hi. rewrite before_rank by (auto; apply HV; lia).
  rewrite (rank_perm _ _ _ _ P). set (r := rank _ _ i).
  destruct (Nat.leb_spec kt r), (Z.ltb_spec (Z.of_nat kt) (1 + Z.of_nat r)); try lia; cbn [andb]; auto.
  destruct (Nat.ltb_spec r (n - kb)), (Z.leb_spec (1 + Z.of_nat r) (Z.of_nat n - Z.of_nat kb)); try lia; auto.
Qed.

Lemma split_three {A} (s : list A) a b : (a + b <= List.length s)%nat ->
  s = (firstn a s ++ firstn b (skipn a s) ++ skipn (a + b) s)%list.
Proof.
  intros H. rewrite <- (firstn_skipn a s) at 1. f_equal.
  rewrite <- (firstn_skipn b (skipn a s)) at 1. f_equal.
  clear H. revert s. induction a as [|a IH]; intros s; simpl; auto. destruct s; simpl; auto.
  now rewrite skipn_nil.
Qed.

Lemma trim_slice {A} (value : A -> num) rows kt kb order :
  Permutation order (seq 0 (List.length rows)) ->
  (forall r, In r rows -> value r <> NaN) -> (kt + kb <= List.length rows)%nat ->
  extremes_removed value kt kb rows
    (loc_rows (kept_pos (fun i => nth i (map value rows) NaN) order (Z.of_nat kt) (Z.of_nat kb) (List.length rows)) rows).
Proof.
  intros P HV L. destruct rows as [|d rows'] eqn:ER.
  { simpl in L. assert (kt = 0%nat) by lia. assert (kb = 0%nat) by lia. subst. split; [constructor|].
    exists [], []. repeat split; auto; intros; contradiction. }
  rewrite <- ER in *. clear ER. set (n := List.length rows) in *. set (v := fun i => nth i (map value rows) NaN).
  assert (V : forall i, (i < n)%nat -> v i = value (nth i rows d)).
  { intros i Hi. unfold v. rewrite (nth_indep _ NaN (value d)) by (rewrite map_length; auto). apply map_nth. }
  assert (HV' : forall i, (i < n)%nat -> v i <> NaN).
  { intros i Hi. rewrite V by auto. apply HV. now apply nth_In. }
  destruct (kept_slice v n order kt kb P HV') as (s & Ps & Ss & Pk).
  assert (Ls : List.length s = n) by (rewrite <- (Permutation_length Ps); apply seq_length).
  rewrite (loc_rows_eq d). fold n. set (K := filter _ _) in *. set (f := fun i => nth i rows d).
  assert (E := split_three s kt (n - kb - kt) ltac:(lia)).
  set (hi := firstn kt s) in *. set (mid := firstn (n - kb - kt) (skipn kt s)) in *.
  set (lo := skipn (kt + (n - kb - kt)) s) in *.
  assert (Lhi : List.length hi = kt) by (unfold hi; rewrite firstn_length; lia).
  assert (Llo : List.length lo = kb) by (unfold lo; rewrite skipn_length; lia).
  assert (INs : forall x, In x s -> (x < n)%nat).
  { intros x Hx. apply (Permutation_in _ (Permutation_sym Ps)) in Hx. apply in_seq in Hx. lia. }
  rewrite E in Ss. apply SSorted_app_inv in Ss as (S1 & S2 & R1). apply SSorted_app_inv in S2 as (_ & _ & R2).
  assert (InK : forall x, In x K <-> In x mid).
  { intros x. split; apply Permutation_in; auto. now symmetry. }
  assert (Hs : forall x, In x s <-> In x hi \/ In x mid \/ In x lo).
  { intros x. rewrite E at 1. rewrite !in_app_iff. tauto. }
  assert (LE : forall x y, In x s -> In y s -> pos_before v order x y = true -> nleb (value (f y)) (value (f x)) = true).
  { intros x y Hx Hy B. unfold f. rewrite <- !V by auto. eapply pos_before_le; eauto. }
  split.
  - rewrite <- (map_nth_seq d rows) at 1. apply subseq_filter.
  - exists (map f hi), (map f lo). split; [|split; [|split; [|split]]].
    + rewrite <- (map_nth_seq d rows) at 1. fold n f. rewrite Pk, <- !map_app. apply Permutation_map.
      rewrite Ps. now rewrite E at 1.
    + now rewrite map_length.
    + now rewrite map_length.
    + intros h k Hh Hk. apply in_map_iff in Hh as (x & <- & Hx). rewrite <- map_app in Hk.
      apply in_map_iff in Hk as (y & <- & Hy). apply in_app_iff in Hy. rewrite InK in Hy.
      apply LE; [apply Hs; tauto|apply Hs; tauto|]. apply R1; auto. apply in_app_iff. tauto.
    + intros l k Hl Hk. apply in_map_iff in Hl as (x & <- & Hx). rewrite <- map_app in Hk.
      apply in_map_iff in Hk as (y & <- & Hy). apply in_app_iff in Hy. rewrite InK in Hy.
      apply LE; [apply Hs; tauto|apply Hs; tauto|]. destruct Hy as [Hy|Hy].
      * apply R1; auto. apply in_app_iff. tauto.
      * apply R2; auto.
Qed.

(* ------------------------------------------------------------------ *)
(** binary64 facts *)
Local Open Scope R_scope.

Lemma floor_rnd_le x : 0 <= x -> IZR (Zfloor (rnd x)) <= x * (1 + bpow radix2 (-53)).
Proof.
  intros Hx. destruct (Rlt_le_dec x (1 / 2)) as [Hs|Hb].
  - assert (Zfloor (rnd x) <= 0)%Z.
    { assert (rnd x <= 1 / 2).
      { replace (1 / 2) with (rnd (1 / 2)). { apply rnd_le. lra. }
        apply round_generic; auto with typeclass_instances.
        replace (1 / 2) with (bpow radix2 (-1)) by (simpl; lra).
        apply generic_format_bpow. unfold FLT_exp. lia. }
      assert (IZR (Zfloor (rnd x)) <= 1 / 2) by (eapply Rle_trans; [apply Zfloor_lb|auto]).
      assert (IZR (Zfloor (rnd x)) < 1) by lra. apply lt_IZR in H1. lia. }
    apply IZR_le in H. eapply Rle_trans; [exact H|]. apply Rmult_le_pos; auto.
    pose proof (bpow_ge_0 radix2 (-53)). lra.
  - destruct (relative_error_N_FLT_ex radix2 (-1074) 53 ltac:(lia) (fun n => negb (Z.even n)) x) as (eps & He & E).
    { rewrite Rabs_pos_eq by auto. apply Rle_trans with (bpow radix2 (-1)); [apply bpow_le; lia|simpl; lra]. }
    eapply Rle_trans; [apply Zfloor_lb|]. unfold rnd. rewrite E.
    apply Rmult_le_compat_l; auto. apply Rplus_le_compat_l.
    apply Rle_trans with (1 := Rle_abs _). eapply Rle_trans; [exact He|]. apply Req_le. simpl. lra.
Qed.

Lemma floor_sum_le t b n : 0 <= t -> 0 <= b -> t + b < 1 -> (0 <= n < 2 ^ 53)%Z ->
  (Zfloor (rnd (t * IZR n)) + Zfloor (rnd (b * IZR n)) <= n)%Z.
Proof.
  intros Ht Hb Hs Hn. assert (N : 0 <= IZR n) by (apply IZR_le; lia).
  pose proof (floor_rnd_le (t * IZR n) ltac:(now apply Rmult_le_pos)) as A.
  pose proof (floor_rnd_le (b * IZR n) ltac:(now apply Rmult_le_pos)) as B.
  set (x := Zfloor (rnd (t * IZR n))) in *. set (y := Zfloor (rnd (b * IZR n))) in *.
  destruct (Z_le_gt_dec (x + y) n) as [|G]; auto. exfalso.
  assert (G' : (n + 1 <= x + y)%Z) by lia. apply IZR_le in G'. rewrite !plus_IZR in G'.
  assert (U : IZR n * bpow radix2 (-53) < 1).
  { assert (IZR n < IZR (2 ^ 53)) by (apply IZR_lt; lia).
    replace 1 with (IZR (2 ^ 53) * bpow radix2 (-53)) by (simpl; lra).
    apply Rmult_lt_compat_r; auto. apply bpow_gt_0. }
  assert (P : 0 < bpow radix2 (-53)) by apply bpow_gt_0. set (u := bpow radix2 (-53)) in *.
  assert (IZR n * (t + b) <= IZR n) by nra.
  assert (IZR n * (t + b) * (1 + u) <= IZR n * (1 + u)) by (apply Rmult_le_compat_r; lra).
  nra.
Qed.

(** what the three percentile checks let through *)
Definition pct_ok (top_pct bottom_pct : f64) : Prop :=
  is_finite top_pct = true /\ is_finite bottom_pct = true /\ 0 <= B2R top_pct /\ 0 <= B2R bottom_pct /\
  B2R top_pct + B2R bottom_pct < 1 /\ rnd (B2R top_pct + B2R bottom_pct) < 1.

Lemma SSorted_map {A B} (R : A -> A -> Prop) (S : B -> B -> Prop) (f : A -> B) l :
  (forall x y, In x l -> In y l -> R x y -> S (f x) (f y)) -> StronglySorted R l -> StronglySorted S (map f l).
Proof.
  intros H K. induction K as [|a l K IH F]; simpl; constructor.
  - apply IH. intros; apply H; auto; now right.
  - rewrite Forall_forall in *. intros y Hy. apply in_map_iff in Hy as (x & <- & Hx). apply H; auto.
    + now left.
    + now right.
Qed.

Lemma SSorted_unique {A} (R : A -> A -> Prop) l m :
  (forall x y, R x y -> R y x -> x = y) -> StronglySorted R l -> StronglySorted R m -> Permutation l m -> l = m.
Proof.
  intros AS Sl. revert m. induction Sl as [|a l Sl IH F]; intros m Sm P.
  - now apply Permutation_nil in P.
  - destruct Sm as [|b m Sm G]; [symmetry in P; now apply Permutation_nil in P|].
    assert (a = b).
    { assert (Ha : In a (b :: m)) by (eapply Permutation_in; [exact P|now left]).
      assert (Hb : In b (a :: l)) by (eapply Permutation_in; [symmetry; exact P|now left]).
      rewrite Forall_forall in *. destruct Ha as [Ha|Ha]; [auto|]. destruct Hb as [Hb|Hb]; [auto|].
      apply AS; auto. }
    subst b. f_equal. apply IH; auto. now apply Permutation_cons_inv in P.
Qed.

Lemma trim_values {A} (value : A -> num) rows kt kb order :
  Permutation order (seq 0 (List.length rows)) -> (forall r, In r rows -> value r <> NaN) ->
  exists vs, Permutation (map value rows) vs /\ StronglySorted (fun a b => nleb b a = true) vs /\
  Permutation (map value
    (loc_rows (kept_pos (fun i => nth i (map value rows) NaN) order (Z.of_nat kt) (Z.of_nat kb) (List.length rows)) rows))
    (firstn (List.length rows - kb - kt) (skipn kt vs)).
Proof.
  intros P HV. destruct rows as [|d rows'] eqn:ER.
  { exists []. rewrite skipn_nil, firstn_nil. repeat constructor. }
  rewrite <- ER in *. clear ER. set (n := List.length rows) in *. set (v := fun i => nth i (map value rows) NaN).
  assert (V : forall i, (i < n)%nat -> v i = value (nth i rows d)).
  { intros i Hi. unfold v. rewrite (nth_indep _ NaN (value d)) by (rewrite map_length; auto). apply map_nth. }
  assert (HV' : forall i, (i < n)%nat -> v i <> NaN).
  { intros i Hi. rewrite V by auto. apply HV. now apply nth_In. }
  destruct (kept_slice v n order kt kb P HV') as (s & Ps & Ss & Pk).
  assert (INs : forall x, In x s -> (x < n)%nat).
  { intros x Hx. apply (Permutation_in _ (Permutation_sym Ps)) in Hx. apply in_seq in Hx. lia. }
  exists (map (fun i => value (nth i rows d)) s). split; [|split].
  - rewrite <- (map_nth_seq d rows) at 1. rewrite map_map. now apply Permutation_map.
  - eapply SSorted_map; [|exact Ss]. intros x y Hx Hy B. simpl. rewrite <- !V by auto. simpl in B; eapply pos_before_le; eauto.
  - rewrite (loc_rows_eq d), map_map. rewrite skipn_map, firstn_map. now apply Permutation_map.
Qed.

Lemma trim_ok_inv {A} (value : A -> num) t b sh rows out :
  trim_outliers value t b sh rows = Ok out ->
  exists kt kb, floor_mul t (Z.of_nat (List.length rows)) = Ok kt /\ floor_mul b (Z.of_nat (List.length rows)) = Ok kb /\
  ((kt = 0 /\ kb = 0 /\ out = rows)%Z \/
   out = loc_rows (kept_pos (fun i => nth i (map value rows) NaN) (sh (List.length rows)) kt kb (List.length rows)) rows).
Proof.
  unfold trim_outliers. intros H.
  apply bind_ok in H as ([] & _ & H). apply bind_ok in H as ([] & _ & H). apply bind_ok in H as ([] & _ & H).
  apply bind_ok in H as (kt & E1 & H). apply bind_ok in H as (kb & E2 & H). apply floor_mul'_eq in E1, E2.
  exists kt, kb. split; auto. split; auto.
  destruct ((kt =? 0) && (kb =? 0))%Z eqn:Z0.
  - apply andb_true_iff in Z0 as [Z1 Z2]. apply Z.eqb_eq in Z1, Z2. left. inversion H. auto.
  - right. inversion H. reflexivity.
Qed.

Lemma pct_checks t b :
  is_finite t = true -> is_finite b = true ->
  (fltb t f0 = false /\ fltb b f0 = false /\ fgeb (fadd t b) f1 = false <->
   0 <= B2R t /\ 0 <= B2R b /\ rnd (B2R t + B2R b) < 1).
Proof.
  intros Ft Fb. rewrite !fltb_f0_false by auto. split; intros (H1 & H2 & H3); (split; [exact H1|split; [exact H2|]]).
  - now apply (proj1 (sum_lt_1 t b Ft Fb H1 H2)).
  - now apply (proj2 (sum_lt_1 t b Ft Fb H1 H2)).
Qed.

Lemma rnd_sum_lt x : rnd x < 1 -> x < 1.
Proof.
  intros H. destruct (Rlt_le_dec x 1) as [|L]; auto. apply rnd_le in L. rewrite (rnd_IZR 1) in L by (simpl; lia). lra.
Qed.

Lemma trim_succeeds {A} (value : A -> num) t b sh rows :
  (Z.of_nat (List.length rows) <= 2 ^ 53)%Z ->
  (is_ok (trim_outliers value t b sh rows) <->
   is_finite t = true /\ is_finite b = true /\ 0 <= B2R t /\ 0 <= B2R b /\ rnd (B2R t + B2R b) < 1).
Proof.
  intros L. split.
  - intros (out & H). destruct (trim_ok_inv _ _ _ _ _ _ H) as (kt & kb & E1 & E2 & _).
    apply floor_mul_ok in E1 as (Ft & _). apply floor_mul_ok in E2 as (Fb & _). split; auto. split; auto.
    apply pct_checks; auto. unfold trim_outliers in H.
    apply bind_ok in H as ([] & H1 & H). apply bind_ok in H as ([] & H2 & H). apply bind_ok in H as ([] & H3 & H).
    apply raise_if_ok in H1, H2, H3. auto.
  - intros (Ft & Fb & H1 & H2 & H3).
    destruct (proj2 (pct_checks t b Ft Fb) (conj H1 (conj H2 H3))) as (C1 & C2 & C3).
    assert (S := rnd_sum_lt _ H3).
    destruct (floor_mul_bounds t (Z.of_nat (List.length rows)) Ft ltac:(lra) ltac:(lia)) as (kt & E1 & _).
    destruct (floor_mul_bounds b (Z.of_nat (List.length rows)) Fb ltac:(lra) ltac:(lia)) as (kb & E2 & _).
    apply floor_mul'_eq in E1, E2. unfold trim_outliers. rewrite C1, C2, C3, E1, E2. cbn [raise_if bind].
    destruct ((kt =? 0) && (kb =? 0))%Z; eexists; reflexivity.
Qed.

Lemma trim_count_floor p n k : floor_mul p n = Ok k -> k = trim_count p n.
Proof. intros H. now apply floor_mul_ok in H as (_ & _ & _ & ->). Qed.

Lemma trim_counts_fit t b n kt kb : (0 <= n < 2 ^ 53)%Z -> 0 <= B2R t -> 0 <= B2R b -> rnd (B2R t + B2R b) < 1 ->
  floor_mul t n = Ok kt -> floor_mul b n = Ok kb -> (0 <= kt /\ 0 <= kb /\ kt + kb <= n)%Z.
Proof.
  intros Hn Ht Hb Hs E1 E2. assert (S := rnd_sum_lt _ Hs).
  destruct (floor_mul_bounds t n (proj1 (proj1 (floor_mul_ok t n kt) E1)) ltac:(lra) ltac:(lia)) as (k1 & A1 & _ & B1).
  destruct (floor_mul_bounds b n (proj1 (proj1 (floor_mul_ok b n kb) E2)) ltac:(lra) ltac:(lia)) as (k2 & A2 & _ & B2).
  rewrite E1 in A1. rewrite E2 in A2. inversion A1; inversion A2; subst k1 k2.
  split; [lia|split; [lia|]]. rewrite (trim_count_floor _ _ _ E1), (trim_count_floor _ _ _ E2). unfold trim_count.
  rewrite rnd_IZR by lia. now apply floor_sum_le.
Qed.
