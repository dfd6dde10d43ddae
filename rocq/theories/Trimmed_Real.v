(** TrimmedArray on finite data: the statistics as real numbers. *)
From Coq Require Import ZArith Reals Lra Lia List Bool Permutation Sorting.Sorted.
From Flocq Require Import Core BinarySingleNaN.
Require Import Verif.Base Verif.Num Verif.NumOrd Verif.F64 Verif.ListLib Verif.Rank
  Verif.Assign_Proofs Verif.Trimmed_Model Verif.Trimmed_Spec Verif.Moments Verif.Trimmed_Proofs.
Import ListNotations.
Open Scope R_scope.

Lemma nth_map_Fin i l : (i < length l)%nat -> nth i (map Fin l) NaN = Fin (nth i l 0).
Proof. intros H. rewrite nth_indep with (d' := Fin 0) by (now rewrite map_length). apply map_nth. Qed.

Lemma ndot_fin a b : ndot (map Fin a) (map Fin b) = Fin (total (map (fun p => fst p * snd p) (combine a b))).
Proof.
  unfold ndot. revert b. induction a as [|x a IH]; intros [|y b]; simpl; auto. now rewrite IH.
Qed.

Lemma nsum_Fin l : nsum (map Fin l) = Fin (total l).
Proof. apply nsum_fin. Qed.

Lemma diag_map {A B} (F : A -> A -> B) d rows :
  map (fun i => nth i (nth i (map (fun r => map (F r) rows) rows) []) d) (seq 0 (length rows)) = map (fun r => F r r) rows.
Proof.
  destruct rows as [|r1 rows']; [reflexivity|]. set (rows := r1 :: rows').
  transitivity (map (fun r => F r r) (map (fun i => nth i rows r1) (seq 0 (length rows)))).
  2: { now rewrite map_nth_seq. }
  rewrite map_map. apply map_ext_in. intros i Hi. apply in_seq in Hi.
  rewrite nth_indep with (l := map (fun r => map (F r) rows) rows) (d' := (fun r => map (F r) rows) r1) by (rewrite map_length; lia).
  rewrite (map_nth (fun r => map (F r) rows)).
  rewrite nth_indep with (l := map (F (nth i rows r1)) rows) (d' := F (nth i rows r1) r1) by (rewrite map_length; lia).
  now rewrite map_nth.
Qed.

Record finite_trimmed (t : tarray) (rows : list (list R)) (n k : nat) : Prop := {
  ft_rows : t_rows t = fins rows;
  ft_k : t_k t = k;
  ft_nonempty : rows <> [];
  ft_rect : rect n rows;
  ft_small : (2 * k < n)%nat
}.

Section Real.
Context (argsort : list num -> list nat) (HS : sorts argsort).
Context (t : tarray) (rows : list (list R)) (n k : nat) (FT : finite_trimmed t rows n k).

Let kept := t_kept argsort t.
Notation r0 := (hd [] rows).

Lemma r0_In : In r0 rows.
Proof. destruct FT as [_ _ N _ _]. destruct rows; [congruence|now left]. Qed.
Lemma r0_length : length r0 = n.
Proof. apply (ft_rect _ _ _ _ FT), r0_In. Qed.
Lemma hd_rows : hd [] (t_rows t) = map Fin r0.
Proof. rewrite (ft_rows _ _ _ _ FT). unfold fins. destruct FT as [_ _ N _ _]. destruct rows; [congruence|reflexivity]. Qed.
Lemma size_n : t_size t = n.
Proof. unfold t_size, sample_size. now rewrite hd_rows, map_length, r0_length. Qed.

Lemma kept_len : length kept = (n - 2 * k)%nat.
Proof.
  unfold kept, t_kept. rewrite kept_length; auto; rewrite (ft_k _ _ _ _ FT); fold (t_size t); rewrite size_n; auto.
  destruct FT; lia.
Qed.
Lemma kept_bound i : In i kept -> (i < n)%nat.
Proof. intros H. unfold kept, t_kept in H. apply (kept_lt argsort HS) in H. fold (t_size t) in H. now rewrite size_n in H. Qed.
Lemma kept_nonempty : kept <> [].
Proof. intros E. assert (L := kept_len). rewrite E in L. simpl in L. destruct FT; lia. Qed.

Lemma values_real : values_trimmed argsort t = map (fun r => map Fin (rtake kept r)) rows.
Proof.
  unfold values_trimmed, values_trimmed_of. fold (t_kept argsort t). fold kept.
  rewrite (ft_rows _ _ _ _ FT). unfold fins. rewrite map_map. apply map_ext_in. intros r Hr.
  apply take_fin. intros i Hi. rewrite (ft_rect _ _ _ _ FT r Hr). now apply kept_bound.
Qed.

Lemma hd_values : hd [] (values_trimmed argsort t) = map Fin (rtake kept r0).
Proof. rewrite values_real. destruct FT as [_ _ N _ _]. destruct rows; [congruence|reflexivity]. Qed.

Lemma rtake_length idx r : length (rtake idx r) = length idx.
Proof. unfold rtake. apply map_length. Qed.

Lemma len_real : t_len argsort t = (n - 2 * k)%nat.
Proof. unfold t_len. now rewrite hd_values, map_length, rtake_length, kept_len. Qed.

(** the columns of the extreme kept values of the first row *)
Definition cmin : nat := nth (argmin (map Fin (rtake kept r0))) kept 0%nat.
Definition cmax : nat := nth (argmax (map Fin (rtake kept r0))) kept 0%nat.
Definition widx : list nat := (kept ++ repeat cmin k ++ repeat cmax k)%list.

Lemma rtake_nonempty r : rtake kept r <> [].
Proof. intros E. apply kept_nonempty. unfold rtake in E. now apply map_eq_nil in E. Qed.

Lemma argmin_bound : (argmin (map Fin (rtake kept r0)) < length kept)%nat.
Proof. rewrite <- (rtake_length kept r0). apply argmin_spec, rtake_nonempty. Qed.
Lemma argmax_bound : (argmax (map Fin (rtake kept r0)) < length kept)%nat.
Proof. rewrite <- (rtake_length kept r0). apply argmax_spec, rtake_nonempty. Qed.

Lemma nth_rtake i r : (i < length kept)%nat -> nth i (rtake kept r) 0 = nth (nth i kept 0%nat) r 0.
Proof.
  intros H. unfold rtake. rewrite nth_indep with (d' := (fun i => nth i r 0) 0%nat) by (now rewrite map_length).
  exact (map_nth (fun i => nth i r 0) kept 0%nat i).
Qed.

Lemma min_real r : min_value argsort t (map Fin (rtake kept r)) = Fin (nth cmin r 0).
Proof.
  unfold min_value. rewrite hd_values, nth_map_Fin by (rewrite rtake_length; apply argmin_bound).
  now rewrite nth_rtake by apply argmin_bound.
Qed.
Lemma max_real r : max_value argsort t (map Fin (rtake kept r)) = Fin (nth cmax r 0).
Proof.
  unfold max_value. rewrite hd_values, nth_map_Fin by (rewrite rtake_length; apply argmax_bound).
  now rewrite nth_rtake by apply argmax_bound.
Qed.

Lemma cmin_kept : In cmin kept.
Proof. apply nth_In, argmin_bound. Qed.
Lemma cmax_kept : In cmax kept.
Proof. apply nth_In, argmax_bound. Qed.

Lemma widx_length : length widx = n.
Proof. unfold widx. rewrite !app_length, !repeat_length, kept_len. destruct FT; lia. Qed.
Lemma widx_nonempty : widx <> [].
Proof. intros E. assert (L := widx_length). rewrite E in L. simpl in L. destruct FT; lia. Qed.
Lemma widx_kept i : In i widx <-> In i kept.
Proof.
  unfold widx. rewrite !in_app_iff. split; [|tauto].
  intros [H|[H|H]]; auto; apply repeat_spec in H; subst; auto using cmin_kept, cmax_kept.
Qed.

Lemma n_nonzero : INR n <> 0.
Proof. apply not_0_INR. destruct FT; lia. Qed.

Lemma mean_real : t_mean argsort t = map (fun r => Fin (avg (rtake kept r))) rows.
Proof.
  unfold t_mean. rewrite values_real, map_map. apply map_ext. intros r.
  rewrite nsum_Fin, map_length. unfold avg. apply ndiv_fin. rewrite rtake_length.
  apply not_0_INR. rewrite kept_len. destruct FT; lia.
Qed.

Lemma rtake_app a b r : rtake (a ++ b) r = (rtake a r ++ rtake b r)%list.
Proof. unfold rtake. apply map_app. Qed.
Lemma rtake_repeat i m r : rtake (repeat i m) r = repeat (nth i r 0) m.
Proof. induction m; simpl; congruence. Qed.

Lemma wmean_real r : wmean_of argsort t (map Fin (rtake kept r)) = Fin (avg (rtake widx r)).
Proof.
  unfold wmean_of. rewrite nsum_Fin, min_real, max_real, size_n, (ft_k _ _ _ _ FT). simpl nadd. simpl nmul.
  rewrite ndiv_fin by apply n_nonzero. f_equal. unfold avg. rewrite rtake_length, widx_length. f_equal.
  unfold widx. rewrite !rtake_app, !total_app, !rtake_repeat, !total_repeat. ring.
Qed.

Lemma winsorized_mean_real : winsorized_mean argsort t = map (fun r => Fin (avg (rtake widx r))) rows.
Proof. unfold winsorized_mean. rewrite values_real, map_map. apply map_ext. intros r. apply wmean_real. Qed.

Lemma cov_real ddof r s : cov_of argsort t ddof (map Fin (rtake kept r)) (map Fin (rtake kept s)) =
  ndiv (Fin (codev (rtake widx r) (rtake widx s))) (Fin (IZR (Z.of_nat (n - 2 * k) - ddof))).
Proof.
  unfold cov_of. rewrite !wmean_real, !min_real, !max_real, len_real, (ft_k _ _ _ _ FT).
  rewrite !map_map. cbn [nsub nadd nneg nmul].
  rewrite <- (map_map (fun x => x + - avg (rtake widx r)) Fin).
  rewrite <- (map_map (fun x => x + - avg (rtake widx s)) Fin).
  rewrite ndot_fin. cbn [nadd]. f_equal. f_equal.
  unfold codev. set (wr := avg (rtake widx r)). set (ws := avg (rtake widx s)).
  unfold rtake. rewrite !map_map, !combine_map2, !map_map. cbn [fst snd].
  unfold widx. rewrite !map_app, !total_app.
  assert (G : forall i m, total (map (fun x => (nth x r 0 - wr) * (nth x s 0 - ws)) (repeat i m)) =
                INR m * ((nth i r 0 - wr) * (nth i s 0 - ws))).
  { intros i m. rewrite <- total_repeat. f_equal. induction m; simpl; congruence. }
  rewrite !G. unfold Rminus. ring.
Qed.

Definition rcov (ddof : Z) (r s : list R) : R :=
  codev (rtake widx r) (rtake widx s) / IZR (Z.of_nat (n - 2 * k) - ddof).

Lemma cov_matrix ddof : t_cov argsort t ddof =
  map (fun r => map (fun s => ndiv (Fin (codev (rtake widx r) (rtake widx s))) (Fin (IZR (Z.of_nat (n - 2 * k) - ddof)))) rows) rows.
Proof.
  unfold t_cov. rewrite values_real, map_map. apply map_ext. intros r. rewrite map_map. apply map_ext.
  intros s. apply cov_real.
Qed.

Lemma cov_matrix_fin ddof : (ddof < Z.of_nat (n - 2 * k))%Z ->
  t_cov argsort t ddof = map (fun r => map (fun s => Fin (rcov ddof r s)) rows) rows.
Proof.
  intros H. rewrite cov_matrix. apply map_ext. intros r. apply map_ext. intros s.
  rewrite ndiv_fin; [reflexivity|]. apply not_0_IZR. lia.
Qed.

Lemma var_real ddof : t_var argsort t ddof =
  map (fun r => ndiv (Fin (codev (rtake widx r) (rtake widx r))) (Fin (IZR (Z.of_nat (n - 2 * k) - ddof)))) rows.
Proof.
  unfold t_var. rewrite cov_matrix, (ft_rows _ _ _ _ FT). unfold fins. rewrite map_length. apply diag_map.
Qed.

Lemma var_real_fin ddof : (ddof < Z.of_nat (n - 2 * k))%Z ->
  t_var argsort t ddof = map (fun r => Fin (rcov ddof r r)) rows.
Proof.
  intros H. rewrite var_real. apply map_ext. intros r. rewrite ndiv_fin; [reflexivity|]. apply not_0_IZR. lia.
Qed.

(** first row: kept values are the middle of the sorted row *)
Lemma kept_middle s : Permutation r0 s -> StronglySorted Rle s -> Permutation (rtake kept r0) (middle k s).
Proof.
  intros P S. apply Permutation_map_Fin. rewrite <- middle_map.
  rewrite <- take_fin by (intros i Hi; rewrite r0_length; now apply kept_bound).
  unfold kept, t_kept. rewrite <- hd_rows, (ft_k _ _ _ _ FT).
  apply kept_values; auto. rewrite hd_rows. now apply ascending_fin.
Qed.

Lemma cmin_least : least (rtake kept r0) (nth cmin r0 0).
Proof.
  destruct (argmin_spec (rtake kept r0) (rtake_nonempty r0)) as [_ H].
  rewrite nth_rtake in H by apply argmin_bound. exact H.
Qed.
Lemma cmax_greatest : greatest (rtake kept r0) (nth cmax r0 0).
Proof.
  destruct (argmax_spec (rtake kept r0) (rtake_nonempty r0)) as [_ H].
  rewrite nth_rtake in H by apply argmax_bound. exact H.
Qed.
End Real.

Lemma map_const {A B} (f : A -> B) c l : (forall x, In x l -> f x = c) -> map f l = repeat c (length l).
Proof. induction l as [|a l IH]; simpl; intros H; auto. rewrite H by now left. f_equal. apply IH. auto. Qed.

(** winsorizing the values around the middle of a sorted list *)
Lemma winsorize_clip l s k lo hi : Permutation l s -> StronglySorted Rle s -> (2 * k < length l)%nat ->
  least (middle k s) lo -> greatest (middle k s) hi ->
  Permutation (middle k s ++ repeat lo k ++ repeat hi k) (map (clip lo hi) l).
Proof.
  intros P S Hk [L1 L2] [G1 G2].
  rewrite (Permutation_map (clip lo hi) P).
  assert (Hl := Permutation_length P).
  assert (E := middle_split k s ltac:(lia)). 
  set (a := firstn k s) in *. set (b := middle k s) in *. set (c := skipn (length s - k) s) in *.
  assert (La : length a = k) by (unfold a; rewrite firstn_length; lia).
  assert (Lc : length c = k) by (unfold c; rewrite skipn_length; lia).
  rewrite E in S. apply SSorted_app_inv in S as (_ & S & Sa). apply SSorted_app_inv in S as (_ & _ & Sb).
  assert (HH : lo <= hi) by auto.
  rewrite E, !map_app.
  rewrite (map_const (clip lo hi) lo a).
  2: { intros x Hx. assert (x <= lo) by (apply Sa; auto; apply in_or_app; auto).
       unfold clip. rewrite Rmin_right by lra. now apply Rmax_left. }
  rewrite (map_const (clip lo hi) hi c).
  2: { intros x Hx. assert (hi <= x) by (apply Sb; auto). unfold clip. rewrite Rmin_left by lra. now apply Rmax_right. }
  replace (map (clip lo hi) b) with b.
  2: { rewrite <- (map_id b) at 1. apply map_ext_in. intros x Hx. apply L2 in Hx as H1. apply G2 in Hx as H2.
       unfold clip. rewrite Rmin_right by lra. now rewrite Rmax_right. }
  rewrite La, Lc. apply Permutation_app_swap_app.
Qed.

Lemma nth_middle {A} k (s : list A) d i : (i < length s - 2 * k)%nat -> nth i (middle k s) d = nth (k + i) s d.
Proof.
  intros H. unfold middle.
  transitivity (nth (k + i) (firstn k s ++ skipn k s) d); [|now rewrite firstn_skipn].
  rewrite app_nth2; rewrite firstn_length, Nat.min_l by lia; [|lia].
  replace (k + i - k)%nat with i by lia.
  transitivity (nth i (firstn (length s - 2 * k) (skipn k s) ++ skipn (length s - 2 * k) (skipn k s)) d);
    [|now rewrite firstn_skipn].
  rewrite app_nth1; auto. rewrite firstn_length, skipn_length. lia.
Qed.

Lemma sorted_middle k s : StronglySorted Rle s -> StronglySorted Rle (middle k s).
Proof.
  intros H. unfold middle. rewrite <- (firstn_skipn k s) in H. apply SSorted_app_inv in H as (_ & H & _).
  rewrite <- (firstn_skipn (length s - 2 * k) (skipn k s)) in H. now apply SSorted_app_inv in H.
Qed.

Lemma sorted_ends s : StronglySorted Rle s -> s <> [] -> least s (nth 0 s 0) /\ greatest s (nth (length s - 1) s 0).
Proof.
  intros S N. assert (0 < length s)%nat by (destruct s; simpl; [congruence|lia]).
  split; split; try (apply nth_In; lia); intros x Hx; apply (In_nth _ _ 0) in Hx as (i & Hi & <-).
  - destruct i; [lra|]. apply (StronglySorted_nth Rle s 0 S); lia.
  - destruct (Nat.eq_dec i (length s - 1)) as [->|]; [lra|]. apply (StronglySorted_nth Rle s 0 S); lia.
Qed.

Lemma middle_ends s k : StronglySorted Rle s -> (2 * k < length s)%nat ->
  least (middle k s) (nth k s 0) /\ greatest (middle k s) (nth (length s - 1 - k) s 0).
Proof.
  intros S Hk. assert (L := middle_length k s ltac:(lia)).
  destruct (sorted_ends (middle k s) (sorted_middle k s S)) as [A B].
  { intros E. rewrite E in L. simpl in L. lia. }
  rewrite nth_middle in A, B by lia. rewrite L in B.
  replace (k + (length s - 2 * k - 1))%nat with (length s - 1 - k)%nat in B by lia.
  rewrite Nat.add_0_r in A. auto.
Qed.

Lemma least_unique l a b : least l a -> least l b -> a = b.
Proof. intros [A1 A2] [B1 B2]. apply Rle_antisym; auto. Qed.
Lemma greatest_unique l a b : greatest l a -> greatest l b -> a = b.
Proof. intros [A1 A2] [B1 B2]. apply Rle_antisym; auto. Qed.
Lemma least_perm l m a : Permutation l m -> least l a -> least m a.
Proof.
  intros P [A1 A2]. split; [eapply Permutation_in; eauto|]. intros x Hx. apply A2.
  eapply Permutation_in; [symmetry|]; eauto.
Qed.
Lemma greatest_perm l m a : Permutation l m -> greatest l a -> greatest m a.
Proof.
  intros P [A1 A2]. split; [eapply Permutation_in; eauto|]. intros x Hx. apply A2.
  eapply Permutation_in; [symmetry|]; eauto.
Qed.

Section First.
Context (argsort : list num -> list nat) (HS : sorts argsort).
Context (t : tarray) (rows : list (list R)) (n k : nat) (FT : finite_trimmed t rows n k).
Notation r0 := (hd [] rows).

Lemma widx_clip s : Permutation r0 s -> StronglySorted Rle s ->
  Permutation (rtake (widx argsort t rows k) r0) (map (clip (nth k s 0) (nth (n - 1 - k) s 0)) r0).
Proof.
  intros P S. assert (R0 := r0_length t rows n k FT). assert (Ls := Permutation_length P).
  destruct (middle_ends s k S) as [A B]. { destruct FT; lia. }
  assert (KM := kept_middle argsort HS t rows n k FT s P S).
  assert (E1 : nth (cmin argsort t rows) r0 0 = nth k s 0).
  { eapply least_unique; [|exact A]. eapply least_perm; [exact KM|]. eapply cmin_least; eauto. }
  assert (E2 : nth (cmax argsort t rows) r0 0 = nth (n - 1 - k) s 0).
  { eapply greatest_unique; [|rewrite <- R0, Ls; exact B]. eapply greatest_perm; [exact KM|]. eapply cmax_greatest; eauto. }
  unfold widx. rewrite !rtake_app, !rtake_repeat, E1, E2, KM.
  apply winsorize_clip; auto.
  - destruct FT; lia.
  - now rewrite <- R0, Ls.
Qed.
End First.
