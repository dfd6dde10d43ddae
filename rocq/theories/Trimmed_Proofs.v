(** Lemmas about the TrimmedArray model. *)
From Coq Require Import ZArith Reals Lra Lia List Bool Permutation Sorting.Sorted.
From Flocq Require Import Core BinarySingleNaN.
Require Import Verif.Base Verif.Num Verif.NumOrd Verif.F64 Verif.ListLib Verif.Rank
  Verif.Assign_Proofs Verif.Trimmed_Model Verif.Trimmed_Spec.
Import ListNotations.
Open Scope R_scope.

(** order with NaN last *)
Lemma nan_last_refl x : nan_last x x.
Proof. destruct x; unfold nan_last; auto; left; apply nleb_refl; congruence. Qed.
Lemma nan_last_antisym x y : nan_last x y -> nan_last y x -> x = y.
Proof.
  intros [A|A] [B|B]; try congruence; subst.
  - now apply nleb_antisym.
  - destruct y; discriminate.
  - destruct x; discriminate.
Qed.
Lemma nan_last_trans x y z : nan_last x y -> nan_last y z -> nan_last x z.
Proof.
  intros [A|A] [B|B]; subst; try (right; reflexivity).
  - left. eapply nleb_trans; eauto.
  - destruct z; discriminate.
Qed.
Lemma nan_last_total x y : nan_last x y \/ nan_last y x.
Proof.
  destruct (nis_nan x) eqn:Ex; [right; right; destruct x; try discriminate; reflexivity|].
  destruct (nis_nan y) eqn:Ey; [left; right; destruct y; try discriminate; reflexivity|].
  apply nis_nan_iff in Ex, Ey.
  destruct (nltb_total x y Ex Ey) as [H|[H|H]].
  - left; left; now apply nltb_nleb.
  - subst. left. apply nan_last_refl.
  - right; left; now apply nltb_nleb.
Qed.

Lemma slice_inner_middle {A} k (l : list A) : slice_inner k l = middle k l.
Proof. unfold slice_inner, middle. f_equal. lia. Qed.

Lemma middle_map {A B} (f : A -> B) k l : middle k (map f l) = map f (middle k l).
Proof. unfold middle. now rewrite map_length, skipn_map, firstn_map. Qed.

Lemma middle_length {A} k (l : list A) : (2 * k <= length l)%nat -> length (middle k l) = (length l - 2 * k)%nat.
Proof. intros H. unfold middle. rewrite firstn_length, skipn_length. lia. Qed.

Lemma middle_split {A} k (l : list A) : (2 * k <= length l)%nat ->
  l = (firstn k l ++ middle k l ++ skipn (length l - k) l)%list.
Proof.
  intros H. rewrite (split_three l k (length l - 2 * k)) at 1 by lia. unfold middle.
  do 2 f_equal. f_equal. lia.
Qed.

Lemma ascending_unique l s s' : ascending l s -> ascending l s' -> s = s'.
Proof.
  intros [P S] [P' S']. apply (SSorted_unique nan_last); auto using nan_last_antisym.
  now rewrite <- P.
Qed.

Section Kept.
Context (argsort : list num -> list nat) (HS : sorts argsort).

Lemma argsort_In l i : In i (argsort l) <-> (i < length l)%nat.
Proof.
  destruct (HS l) as [P _]. split; intros H.
  - apply (Permutation_in _ P), in_seq in H. lia.
  - eapply Permutation_in; [symmetry; exact P|]. apply in_seq. lia.
Qed.
Lemma argsort_length l : length (argsort l) = length l.
Proof. destruct (HS l) as [P _]. now rewrite (Permutation_length P), seq_length. Qed.
Lemma argsort_NoDup l : NoDup (argsort l).
Proof. destruct (HS l) as [P _]. eapply Permutation_NoDup; [symmetry; exact P|apply seq_NoDup]. Qed.

Lemma take_seq row : take (seq 0 (length row)) row = row.
Proof. apply map_nth_seq. Qed.

Lemma argsort_ascending l : ascending l (take (argsort l) l).
Proof.
  destruct (HS l) as [P S]. split.
  - unfold take. rewrite P. fold (take (seq 0 (length l)) l). now rewrite take_seq.
  - eapply SSorted_map; [|exact S]. auto.
Qed.

Lemma middle_incl {A} k (l : list A) x : In x (middle k l) -> In x l.
Proof.
  unfold middle. intros H.
  rewrite <- (firstn_skipn k l). apply in_or_app. right.
  rewrite <- (firstn_skipn (length l - 2 * k) (skipn k l)). apply in_or_app. now left.
Qed.
Lemma middle_NoDup {A} k (l : list A) : NoDup l -> NoDup (middle k l).
Proof.
  unfold middle. intros H.
  assert (G : forall a b : list A, NoDup (a ++ b) -> NoDup a /\ NoDup b).
  { clear. intros a b. induction a as [|x a IH]; simpl; intros H; [split; auto; constructor|].
    inversion H as [|? ? N1 N2]; subst. apply IH in N2 as [N2 N3]. split; auto. constructor; auto.
    intros K; apply N1, in_or_app; now left. }
  rewrite <- (firstn_skipn k l) in H. apply G in H as [_ H].
  rewrite <- (firstn_skipn (length l - 2 * k) (skipn k l)) in H. now apply G in H.
Qed.

Lemma kept_perm rows k : Permutation (kept_index argsort rows k) (middle k (argsort (hd [] rows))).
Proof.
  unfold kept_index. destruct (Nat.eqb_spec k 0) as [->|Hk].
  - unfold middle. simpl. rewrite Nat.sub_0_r, firstn_all. symmetry. apply HS.
  - rewrite slice_inner_middle. apply isort_perm.
Qed.

Lemma kept_length rows k : (2 * k <= sample_size rows)%nat ->
  length (kept_index argsort rows k) = (sample_size rows - 2 * k)%nat.
Proof.
  intros H. rewrite (Permutation_length (kept_perm rows k)).
  rewrite middle_length; rewrite argsort_length; auto.
Qed.

Lemma kept_lt rows k i : In i (kept_index argsort rows k) -> (i < sample_size rows)%nat.
Proof.
  intros H. apply (Permutation_in _ (kept_perm rows k)) in H. apply middle_incl in H.
  now apply argsort_In in H.
Qed.

Lemma seq_sorted a n : StronglySorted lt (seq a n).
Proof.
  revert a. induction n as [|n IH]; intros a; simpl; constructor; auto.
  apply Forall_forall. intros x Hx. apply in_seq in Hx. lia.
Qed.

Lemma kept_sorted rows k : StronglySorted lt (kept_index argsort rows k).
Proof.
  unfold kept_index. destruct (Nat.eqb_spec k 0) as [->|Hk]; [apply seq_sorted|].
  assert (S : StronglySorted (fun x y => le_of Nat.leb x y /\ x <> y) (isort Nat.leb (slice_inner k (argsort (hd [] rows))))).
  { apply StronglySorted_strict.
    - apply isort_NoDup. rewrite slice_inner_middle. apply middle_NoDup, argsort_NoDup.
    - apply isort_sorted; intros; repeat rewrite Nat.leb_le in *; lia. }
  eapply (SSorted_map _ lt (fun x => x)) in S; [now rewrite map_id in S|].
  intros x y _ _ [A B]. apply Nat.leb_le in A. lia.
Qed.

Lemma kept_values rows k s : ascending (hd [] rows) s ->
  Permutation (take (kept_index argsort rows k) (hd [] rows)) (middle k s).
Proof.
  intros H. unfold take. rewrite (kept_perm rows k). rewrite <- middle_map.
  rewrite (ascending_unique _ _ _ H (argsort_ascending (hd [] rows))). reflexivity.
Qed.

Lemma values_trimmed_length rows k r : In r (values_trimmed_of argsort rows k) -> (2 * k <= sample_size rows)%nat ->
  length r = (sample_size rows - 2 * k)%nat.
Proof.
  unfold values_trimmed_of. intros H Hk. apply in_map_iff in H as (r0 & <- & _).
  unfold take. rewrite map_length. now apply kept_length.
Qed.
End Kept.

(** the constructor *)
Definition rect (n : nat) {A} (rows : list (list A)) : Prop := forall r, In r rows -> length r = n.

Lemma quantile_checks (q : f64) k n : (n <= 2 ^ 53)%Z -> (0 <= n)%Z ->
  (fltb q f0 || fgeb q fhalf)%bool = false -> floor_mul q n = Ok k ->
  is_finite q = true /\ 0 <= B2R q < 1 / 2.
Proof.
  intros Hn Hn0 HB HK. apply floor_mul_ok in HK as (Fq & _).
  apply orb_false_elim in HB as [B1 B2].
  destruct f0_val as [F0 V0]. destruct fhalf_val as [FH VH].
  split; auto. split.
  - apply Rnot_lt_le. intros K. rewrite <- V0 in K. apply (fltb_fin q f0 Fq F0) in K. congruence.
  - apply Rnot_le_lt. intros K. rewrite <- VH in K. unfold fgeb in B2.
    apply (fleb_fin fhalf q FH Fq) in K. unfold fleb in K. congruence.
Qed.

Lemma quantile_checks_ok (q : f64) : is_finite q = true -> 0 <= B2R q < 1 / 2 ->
  (fltb q f0 || fgeb q fhalf)%bool = false.
Proof.
  intros Fq Hq. destruct f0_val as [F0 V0]. destruct fhalf_val as [FH VH].
  apply orb_false_intro.
  - destruct (fltb q f0) eqn:E; auto. apply (fltb_fin q f0 Fq F0) in E. lra.
  - destruct (fgeb q fhalf) eqn:E; auto. unfold fgeb in E. apply (fleb_fin fhalf q FH Fq) in E. lra.
Qed.

Lemma any_constant_ok rows n : rect n rows -> (0 < n)%nat -> exists b, any_array_is_constant rows = Ok b.
Proof.
  intros HR Hn. unfold any_array_is_constant.
  replace (existsb (fun r => Nat.eqb (length r) 0) rows) with false; [simpl; eauto|].
  symmetry. apply existsb_false_iff. intros r Hr. apply HR in Hr. rewrite Hr. destruct n; [lia|reflexivity].
Qed.

Lemma mk_trimmed_inv argsort rows q t : mk_trimmed argsort rows q = Ok t ->
  t_rows t = rows /\ rows <> [] /\ (fltb q f0 || fgeb q fhalf)%bool = false /\
  exists k, floor_mul q (Z.of_nat (sample_size rows)) = Ok k /\ t_k t = Z.to_nat k.
Proof.
  unfold mk_trimmed. intros H.
  apply bind_ok in H as (u & H1 & H). apply raise_if_ok in H1.
  apply bind_ok in H as (k & H2 & H).
  destruct rows as [|r rows]; [discriminate|].
  apply bind_ok in H as (u2 & _ & H). apply bind_ok in H as (b & _ & H).
  destruct b.
  - injection H as <-. simpl. repeat split; auto; try discriminate. eauto.
  - apply bind_ok in H as (b & _ & H). injection H as <-. simpl. repeat split; auto; try discriminate. eauto.
Qed.

Lemma mk_trimmed_succeeds argsort rows q n : sorts argsort -> rows <> [] -> rect n rows ->
  (0 < n)%nat -> (Z.of_nat n <= 2 ^ 53)%Z -> is_finite q = true -> 0 <= B2R q < 1 / 2 ->
  exists t k, mk_trimmed argsort rows q = Ok t /\ t_rows t = rows /\
    floor_mul q (Z.of_nat n) = Ok (Z.of_nat k) /\ t_k t = k /\ (2 * k < n)%nat.
Proof.
  intros HS HN HR H0 HB Fq Hq.
  assert (SZ : sample_size rows = n). { unfold sample_size. destruct rows; [congruence|]. apply HR; now left. }
  destruct (floor_mul_bounds q (Z.of_nat n) Fq) as (kz & E & _ & Hk); [lra|lia|].
  assert (H2 : (2 * kz < Z.of_nat n)%Z) by (eapply floor_mul_half_lt; eauto; lia).
  set (k := Z.to_nat kz). assert (EK : kz = Z.of_nat k) by (unfold k; lia).
  assert (Hk2 : (2 * k < n)%nat) by lia.
  assert (L : length (hd [] (values_trimmed_of argsort rows k)) = (n - 2 * k)%nat).
  { destruct rows as [|r rows]; [congruence|]. unfold values_trimmed_of. cbn [map hd].
    unfold take. rewrite map_length. rewrite kept_length; auto; rewrite SZ; lia. }
  assert (RK : rect (n - 2 * k) (values_trimmed_of argsort rows k)).
  { intros r Hr. rewrite <- SZ. eapply values_trimmed_length; eauto. lia. }
  destruct (any_constant_ok rows n HR H0) as [b Eb].
  destruct (any_constant_ok (values_trimmed_of argsort rows k) _ RK) as [b' Eb']; [lia|].
  assert (G : exists w, mk_trimmed argsort rows q = Ok (mkT rows k w)).
  { unfold mk_trimmed. rewrite (quantile_checks_ok q Fq Hq). cbn [raise_if bind].
    rewrite SZ, E. cbn [bind]. fold k. destruct rows as [|r rows]; [congruence|].
    rewrite L. replace (Z.eqb _ _) with true by (symmetry; apply Z.eqb_eq; lia). cbn [negb raise_if bind].
    rewrite Eb. cbn [bind]. destruct b; [eauto|]. rewrite Eb'. cbn [bind]. eauto. }
  destruct G as [w G]. exists (mkT rows k w), k. rewrite <- EK. simpl. auto.
Qed.

(* ------------------------------------------------------------------ *)
(** finite data *)
Definition fins (rows : list (list R)) : list (list num) := map (map Fin) rows.
Definition rtake (idx : list nat) (row : list R) : list R := map (fun i => nth i row 0) idx.

Lemma take_fin idx row : (forall i, In i idx -> (i < length row)%nat) ->
  take idx (map Fin row) = map Fin (rtake idx row).
Proof.
  intros H. unfold take, rtake. rewrite map_map. apply map_ext_in. intros i Hi.
  rewrite nth_indep with (d' := Fin 0) by (rewrite map_length; auto). now rewrite map_nth.
Qed.

Lemma sorted_fin s : StronglySorted Rle s -> StronglySorted nan_last (map Fin s).
Proof. apply SSorted_map. intros x y _ _ H. left. now apply nleb_fin. Qed.

Lemma ascending_fin l s : Permutation l s -> StronglySorted Rle s -> ascending (map Fin l) (map Fin s).
Proof. intros P S. split; [now apply Permutation_map|now apply sorted_fin]. Qed.

Definition Rleb (x y : R) : bool := Rle_bool x y.
Lemma sorted_real l : exists s, Permutation l s /\ StronglySorted Rle s.
Proof.
  exists (isort Rle_bool l). split; [symmetry; apply isort_perm|].
  assert (S : StronglySorted (le_of Rle_bool) (isort Rle_bool l)).
  { apply isort_sorted.
    - intros x y z H1 H2. num_cases.
    - intros x y. destruct (Rle_or_lt x y); [left|right]; num_cases. }
  eapply (SSorted_map _ Rle (fun x => x)) in S; [now rewrite map_id in S|].
  intros x y _ _. unfold le_of. case Rle_bool_spec; auto; congruence.
Qed.

Lemma Permutation_map_Fin l m : Permutation (map Fin l) (map Fin m) -> Permutation l m.
Proof.
  intros H.
  assert (G : forall k : list R, map (fun x => match x with Fin r => r | _ => 0 end) (map Fin k) = k).
  { intros k. rewrite map_map. rewrite <- (map_id k) at 2. apply map_ext. auto. }
  rewrite <- (G l), <- (G m). now apply Permutation_map.
Qed.

(** arg_best on finite values: a position of an extreme value *)
Lemma arg_best_spec (better : R -> R -> bool) : forall l pre best bi,
  (forall x y z, better x y = false -> better y z = false -> better x z = false) ->
  (forall x y, better x y = true -> better y x = false) ->
  nth_error pre bi = Some best ->
  (forall x, In x pre -> better x best = false) ->
  let nb := fun a b => match a, b with Fin x, Fin y => better x y | _, _ => false end in
  exists m, nth_error (pre ++ l) (arg_best nb (Fin best) bi (length pre) (map Fin l)) = Some m /\
    forall x, In x (pre ++ l) -> better x m = false.
Proof.
  intros l. induction l as [|a l IH]; intros pre best bi HT HA HB HP nb; cbn [map arg_best nis_nan orb].
  - rewrite app_nil_r. eauto.
  - destruct (better a best) eqn:E; unfold nb at 1; rewrite E.
    + destruct (IH (pre ++ [a])%list a (length pre) HT HA) as (m & H1 & H2).
      * rewrite nth_error_app2 by lia. now rewrite Nat.sub_diag.
      * intros x Hx. apply in_app_or in Hx as [Hx|[<-|[]]].
        -- eapply HT; [apply HP, Hx|]. now apply HA.
        -- destruct (better a a) eqn:Ea; auto. assert (K := HA _ _ Ea). congruence.
      * rewrite app_length in H1. simpl in H1. rewrite Nat.add_1_r, <- app_assoc in H1. 
        rewrite <- app_assoc in H2. eauto.
    + destruct (IH (pre ++ [a])%list best bi HT HA) as (m & H1 & H2).
      * rewrite nth_error_app1; auto. apply nth_error_Some. congruence.
      * intros x Hx. apply in_app_or in Hx as [Hx|[<-|[]]]; auto.
      * rewrite app_length in H1. simpl in H1. rewrite Nat.add_1_r, <- app_assoc in H1.
        rewrite <- app_assoc in H2. eauto.
Qed.

Lemma arg_best_ext f g : (forall x y, f x y = g x y) -> forall l best bi i, arg_best f best bi i l = arg_best g best bi i l.
Proof. intros H. induction l; intros; simpl; auto. rewrite H. destruct (nis_nan best), (nis_nan a || g a best)%bool; auto. Qed.

Lemma argmin_spec l : l <> [] -> (argmin (map Fin l) < length l)%nat /\
  least l (nth (argmin (map Fin l)) l 0).
Proof.
  destruct l as [|a l]; [congruence|]. intros _. cbn [map argmin].
  destruct (arg_best_spec Rlt_bool l [a] a 0) as (m & H1 & H2).
  - intros x y z H1 H2. num_cases.
  - intros x y H1. num_cases.
  - reflexivity.
  - intros x [<-|[]]. case Rlt_bool_spec; auto. lra.
  - cbn [length app] in H1.
    rewrite (arg_best_ext nltb (fun a b => match a, b with Fin x, Fin y => Rlt_bool x y | _, _ => nltb a b end)) by (intros [] []; reflexivity).
    match type of H1 with nth_error _ ?i = _ => assert (E : arg_best (fun a b => match a, b with Fin x, Fin y => Rlt_bool x y | _, _ => nltb a b end) (Fin a) 0 1 (map Fin l) = i) end.
    { clear. generalize 0%nat 1%nat. revert a. induction l; intros; simpl; auto. destruct (Rlt_bool a a0); auto. }
    rewrite E. split; [apply nth_error_Some; congruence|].
    rewrite (nth_error_nth _ _ _ H1). split; [eapply nth_error_In; eauto|].
    intros x Hx. apply H2 in Hx. revert Hx. case Rlt_bool_spec; auto; congruence.
Qed.

Lemma argmax_spec l : l <> [] -> (argmax (map Fin l) < length l)%nat /\
  greatest l (nth (argmax (map Fin l)) l 0).
Proof.
  destruct l as [|a l]; [congruence|]. intros _. cbn [map argmax].
  destruct (arg_best_spec (fun x y => Rlt_bool y x) l [a] a 0) as (m & H1 & H2).
  - intros x y z H1 H2. num_cases.
  - intros x y H1. num_cases.
  - reflexivity.
  - intros x [<-|[]]. case Rlt_bool_spec; auto. lra.
  - cbn [length app] in H1.
    match type of H1 with nth_error _ ?i = _ => assert (E : arg_best (fun a b => nltb b a) (Fin a) 0 1 (map Fin l) = i) end.
    { clear. generalize 0%nat 1%nat. revert a. induction l; intros; simpl; auto. destruct (Rlt_bool a0 a); auto. }
    rewrite E. split; [apply nth_error_Some; congruence|].
    rewrite (nth_error_nth _ _ _ H1). split; [eapply nth_error_In; eauto|].
    intros x Hx. apply H2 in Hx. revert Hx. case Rlt_bool_spec; auto; congruence.
Qed.
