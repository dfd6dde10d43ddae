(** C75: the cumulative distribution and the Lorenz curve. *)
From Coq Require Import ZArith Reals Lra Lia List Bool Permutation Sorting.Sorted.
From Flocq Require Import Core.
Require Import Verif.Base Verif.Assign_Proofs Verif.Num Verif.NumOrd Verif.ListLib Verif.Trimmed_Spec Verif.Moments Verif.Trimmed_Proofs Verif.Trimmed_Props
  Verif.Cuped_Props Verif.Stats_Model Verif.Stats_Num Verif.Tests_Props Verif.Effect_Props Verif.Curves_Model.
Import ListNotations.
Open Scope R_scope.

(** *** Specification *)
(** the number of values that are at least [v] *)
Definition at_least (v : R) (xs : list R) : nat := length (filter (fun x => if Rle_dec v x then true else false) xs).
(** [part] is a choice of some of the items *)
Definition choice_of (part xs : list R) : Prop := exists rest, Permutation (part ++ rest) xs.
(** [t] is the largest total that k items can have *)
Definition top_total (k : nat) (xs : list R) (t : R) : Prop :=
  (exists part, choice_of part xs /\ length part = k /\ total part = t) /\
  (forall part, choice_of part xs -> length part = k -> total part <= t).

(** *** Sorting *)
Lemma np_sort_data xs s : sorted_as xs s -> np_sort (data xs) = data s.
Proof.
  intros [P SS]. apply (SSorted_unique nan_last); auto using nan_last_antisym.
  - assert (X : StronglySorted (le_of np_leb) (np_sort (data xs))).
    { apply isort_sorted.
      - intros x y z. change np_leb with nan_lastb. rewrite !nan_lastb_spec. apply nan_last_trans.
      - intros x y. change np_leb with nan_lastb. rewrite !nan_lastb_spec. apply nan_last_total. }
    eapply (SSorted_map _ _ (fun x => x)) in X; [rewrite map_id in X; exact X|]. intros x y _ _. unfold le_of. change np_leb with nan_lastb. now rewrite nan_lastb_spec.
  - now apply sorted_fin.
  - etransitivity; [apply isort_perm|]. now apply Permutation_map.
Qed.
Lemma nsum_data l : nsum (data l) = Fin (total l).
Proof. induction l as [|x l IH]; [reflexivity|]. cbn [data map nsum total fold_right]. unfold data in IH. rewrite IH. reflexivity. Qed.
Lemma cumsum_data l : forall acc, cumsum_from (Fin acc) (data l) = map (fun k => Fin (acc + total (firstn k l))) (seq 1 (length l)).
Proof.
  induction l as [|x l IH]; intros acc; [reflexivity|]. cbn [data map cumsum_from length seq]. cbn [nadd]. fold (data l). rewrite IH. f_equal.
  - cbn [firstn total fold_right]. do 2 f_equal. ring.
  - rewrite <- (seq_shift (length l) 1), map_map. apply map_ext. intros k. cbn [firstn total fold_right]. fold (total (firstn k l)). f_equal. ring.
Qed.
Lemma np_cumsum_data l : np_cumsum (data l) = map (fun k => Fin (total (firstn k l))) (seq 1 (length l)).
Proof.
  destruct l as [|x l]; [reflexivity|]. cbn [data map np_cumsum length seq]. fold (data l). rewrite cumsum_data. f_equal.
  - cbn [firstn total fold_right]. f_equal. ring.
  - rewrite <- (seq_shift (length l) 1), map_map. apply map_ext. intros k. reflexivity.
Qed.

Lemma nth_error_firstn {A} (l : list A) i j : (j < i)%nat -> nth_error (firstn i l) j = nth_error l j.
Proof. revert i j. induction l as [|x l IH]; intros [|i] [|j] H; auto; try lia. cbn. apply IH. lia. Qed.

(** *** The cumulative distribution *)
Lemma at_least_cons v x s : at_least v (x :: s) = ((if Rle_dec v x then 1 else 0) + at_least v s)%nat.
Proof. unfold at_least. cbn [filter]. now destruct (Rle_dec v x). Qed.
Lemma at_least_app v a b : at_least v (a ++ b) = (at_least v a + at_least v b)%nat.
Proof. induction a as [|x a IH]; auto. cbn [app]. rewrite !at_least_cons, IH. lia. Qed.
Lemma at_least_perm v a b : Permutation a b -> at_least v a = at_least v b.
Proof. induction 1; auto; rewrite ?at_least_cons; lia. Qed.
Lemma at_least_all v s : (forall x, In x s -> v <= x) -> at_least v s = length s.
Proof.
  induction s as [|x s IH]; intros H; auto. rewrite at_least_cons. destruct (Rle_dec v x) as [_|N]; [|exfalso; apply N, H; now left].
  cbn [length]. rewrite IH; auto. intros; apply H. now right.
Qed.
Lemma at_least_none v s : (forall x, In x s -> x < v) -> at_least v s = 0%nat.
Proof.
  induction s as [|x s IH]; intros H; auto. rewrite at_least_cons. destruct (Rle_dec v x) as [L|_]; [exfalso; specialize (H x (or_introl eq_refl)); lra|].
  apply IH. intros; apply H. now right.
Qed.

Lemma sorted_split s i v : StronglySorted Rle s -> nth_error s i = Some v ->
  (forall x, In x (skipn i s) -> v <= x) /\ (forall x, In x (firstn i s) -> x <= v).
Proof.
  intros SS. revert i. induction SS as [|x s SS IH F]; intros i H; [destruct i; discriminate|].
  destruct i as [|i]; cbn [nth_error skipn firstn] in *.
  - injection H as <-. split; [|intros u []]. intros u [<-|Hu]; [lra|]. rewrite Forall_forall in F. auto.
  - destruct (IH i H) as [A B]. split; auto. intros u [<-|Hu]; auto. rewrite Forall_forall in F. apply F. eapply nth_error_In; eauto.
Qed.

Theorem c75_cumulative_curve :
  forall xs s, xs <> [] -> sorted_as xs s ->
    let n := length xs in
    length (cumulative_points (data xs)) = n /\
    forall i v, nth_error s i = Some v ->
      nth_error (cumulative_points (data xs)) i = Some (Fin v, Fin (INR (n - i) / INR n)) /\
      0 < INR (n - i) / INR n <= INR (at_least v xs) / INR n /\
      ((forall j u, (j < i)%nat -> nth_error s j = Some u -> u <> v) -> INR (n - i) = INR (at_least v xs)).
Proof.
  intros xs s NE SS n. assert (LS : length s = n) by (destruct SS as [P _]; now rewrite <- (Permutation_length P)).
  assert (PN : 0 < INR n) by (apply lt_0_INR; unfold n; destruct xs; [congruence|simpl; lia]).
  unfold cumulative_points. rewrite (np_sort_data _ _ SS). assert (LD : length (data s) = n) by (unfold data; now rewrite map_length). rewrite LD.
  split. { rewrite combine_length, !map_length, seq_length. lia. }
  intros i v Hi. assert (LI : (i < n)%nat) by (rewrite <- LS; apply nth_error_Some; congruence).
  destruct SS as [P SS]. destruct (sorted_split s i v SS Hi) as [A B].
  assert (AL : at_least v xs = (at_least v (firstn i s) + (n - i))%nat).
  { rewrite (at_least_perm v xs s P), <- (firstn_skipn i s), at_least_app, (at_least_all v (skipn i s) A), skipn_length, LS. rewrite firstn_skipn. reflexivity. }
  split; [|split].
  - assert (CN : forall (a : list num) (b : list num) x y, nth_error a i = Some x -> nth_error b i = Some y -> nth_error (combine a b) i = Some (x, y)).
    { clear. induction i as [|i IH]; intros [|u a] [|w b] x y E1 E2; try discriminate; cbn in *; [congruence|auto]. }
    apply CN; [unfold data; rewrite nth_error_map, Hi; reflexivity|].
    rewrite map_map, nth_error_map. rewrite (nth_error_nth' (seq 0 n) 0%nat) by (rewrite seq_length; lia). rewrite seq_nth by lia. cbn [option_map Nat.add].
    unfold nnat. cbn [nsub nneg nadd]. rewrite ndiv_fin by lra. do 2 f_equal. rewrite minus_INR by lia. reflexivity.
  - split; [apply Rdiv_lt_0_compat; auto; apply lt_0_INR; lia|]. apply Rmult_le_compat_r; [apply Rlt_le, Rinv_0_lt_compat; auto|]. apply le_INR. lia.
  - intros FS. f_equal. rewrite AL, at_least_none; [lia|]. intros x Hx. assert (X := B x Hx).
    apply In_nth_error in Hx as (j & Hj). assert (LJ : (j < i)%nat) by (assert (Q : (j < length (firstn i s))%nat) by (apply nth_error_Some; congruence); rewrite firstn_length in Q; lia).
    rewrite nth_error_firstn in Hj by auto. specialize (FS j x LJ Hj). lra.
Qed.

(** *** The Lorenz curve *)
(** descending order *)
Lemma top_is_best s : StronglySorted Rge s -> forall part rest, Permutation (part ++ rest) s -> total part <= total (firstn (length part) s).
Proof.
  induction 1 as [|x s SS IH F]; intros part rest P.
  - apply Permutation_sym, Permutation_nil, app_eq_nil in P as [-> _]. simpl. lra.
  - destruct part as [|y part]; [simpl; lra|].
    assert (I : In x ((y :: part) ++ rest)) by (apply (Permutation_in x (Permutation_sym P)); now left).
    cbn [length firstn]. apply in_app_or in I as [I|I].
    + apply in_split in I as (a & b & E). assert (Q : Permutation (y :: part) (x :: a ++ b)) by (rewrite E; symmetry; apply Permutation_middle).
      assert (L : length part = length (a ++ b)) by (apply Permutation_length in Q; simpl in Q; lia).
      assert (P' : Permutation ((a ++ b) ++ rest) s).
      { apply (Permutation_cons_inv (a := x)). rewrite <- P. rewrite app_comm_cons. apply Permutation_app_tail. symmetry. exact Q. }
      rewrite (total_perm _ _ Q), L. cbn [total fold_right]. assert (X := IH (a ++ b) rest P'). unfold total in X. lra.
    + apply in_split in I as (a & b & E). subst rest.
      assert (P' : Permutation (part ++ (y :: a ++ b)) s).
      { apply (Permutation_cons_inv (a := x)). rewrite <- P. cbn [app].
        etransitivity; [apply perm_skip; symmetry; apply Permutation_middle|]. etransitivity; [apply perm_swap|]. apply perm_skip.
        etransitivity; [apply Permutation_middle|]. apply Permutation_app_head. apply Permutation_middle. }
      assert (X := IH part _ P'). assert (YX : y <= x).
      { assert (IY : In y (x :: s)) by (apply (Permutation_in y P); now left). destruct IY as [->|IY]; [lra|]. rewrite Forall_forall in F. specialize (F y IY). lra. }
      cbn [total fold_right]. unfold total in X. lra.
Qed.
Lemma desc_split s k : StronglySorted Rge s -> forall x y, In x (firstn k s) -> In y (skipn k s) -> y <= x.
Proof.
  intros SS. revert k. induction SS as [|z s SS IH F]; intros [|k] x y Hx Hy; cbn [firstn skipn] in *; try contradiction.
  destruct Hx as [<-|Hx]; [|eauto]. rewrite Forall_forall in F. apply Rge_le, F. rewrite <- (firstn_skipn k s). apply in_or_app. now right.
Qed.
Lemma total_ge c l : (forall x, In x l -> c <= x) -> INR (length l) * c <= total l.
Proof.
  induction l as [|x l IH]; intros H; [simpl; lra|]. cbn [length total fold_right]. rewrite S_INR. assert (X := H x (or_introl eq_refl)).
  assert (Y := IH (fun z Hz => H z (or_intror Hz))). unfold total in Y. lra.
Qed.
Lemma total_le c l : (forall x, In x l -> x <= c) -> total l <= INR (length l) * c.
Proof.
  induction l as [|x l IH]; intros H; [simpl; lra|]. cbn [length total fold_right]. rewrite S_INR. assert (X := H x (or_introl eq_refl)).
  assert (Y := IH (fun z Hz => H z (or_intror Hz))). unfold total in Y. lra.
Qed.
Lemma top_above_average s k : StronglySorted Rge s -> (k <= length s)%nat -> INR k * total s <= INR (length s) * total (firstn k s).
Proof.
  intros SS K. assert (D := desc_split s k SS). rewrite <- (firstn_skipn k s) at 1 2. rewrite total_app, app_length.
  assert (LF : length (firstn k s) = k) by (rewrite firstn_length; lia). rewrite LF, plus_INR.
  set (b := skipn k s) in *. assert (G : INR k * total b <= INR (length b) * total (firstn k s)).
  { destruct b as [|c b'] eqn:EB.
    - simpl. assert (0 <= INR k) by apply pos_INR. lra.
    - assert (H1 : total (c :: b') <= INR (length (c :: b')) * c).
      { apply total_le. intros x [<-|Hx]; [lra|]. assert (SB : StronglySorted Rge (c :: b')).
        { rewrite <- EB. unfold b. clear -SS. revert k. induction SS as [|z s SS IH F]; intros [|k]; cbn [skipn]; auto; constructor; auto. }
        inversion SB as [|? ? _ F]. rewrite Forall_forall in F. specialize (F x Hx). lra. }
      assert (H2 : INR k * c <= total (firstn k s)) by (rewrite <- LF at 1; apply total_ge; intros x Hx; apply (D x c Hx); now left).
      assert (P1 := pos_INR k). assert (P2 := pos_INR (length (c :: b'))). nra. }
  lra.
Qed.

Lemma desc_of xs s : sorted_as xs s -> StronglySorted Rge (rev s) /\ Permutation xs (rev s).
Proof.
  intros [P SS]. split; [|rewrite P; apply Permutation_rev].
  clear P. induction SS as [|x s SS IH F]; cbn [rev]; [constructor|].
  assert (G : forall l, StronglySorted Rge l -> (forall y, In y l -> x <= y) -> StronglySorted Rge (l ++ [x])).
  { induction 1 as [|z l SL IHl FL]; intros H; cbn [app]; [repeat constructor|]. constructor.
    - apply IHl. intros y Hy. apply H. now right.
    - apply Forall_app. split; auto. constructor; [apply Rle_ge, H; now left|constructor]. }
  apply G; auto. intros y Hy. rewrite Forall_forall in F. apply F. now apply in_rev.
Qed.

Lemma total_step s k : (k < length s)%nat -> total (firstn (S k) s) = total (firstn k s) + nth k s 0.
Proof.
  revert k. induction s as [|x s IH]; intros k H; [simpl in H; lia|]. destruct k as [|k]; [simpl; ring|]. cbn [firstn total fold_right nth].
  assert (X := IH k ltac:(simpl in H; lia)). unfold total in X. cbn [firstn] in X. rewrite X. ring.
Qed.

Lemma rev_data s : rev (data s) = data (rev s).
Proof. unfold data. now rewrite map_rev. Qed.

(** the point after [k+1] items *)
Theorem c75_lorenz_points :
  forall xs, xs <> [] -> total xs <> 0 ->
    let n := length xs in
    length (lorenz_points (data xs)) = n /\
    forall k, (k < n)%nat -> exists t, top_total (S k) xs t /\
      nth_error (lorenz_points (data xs)) k = Some (Fin (INR (S k) / INR n), Fin (t / total xs)).
Proof.
  intros xs NE T0 n. destruct (sorted_exists xs) as (s & SS). destruct (desc_of xs s SS) as [SD P].
  assert (LR : length (rev s) = n) by (now rewrite <- (Permutation_length P)).
  assert (PN : 0 < INR n) by (apply lt_0_INR; unfold n; destruct xs; [congruence|simpl; lia]).
  unfold lorenz_points. rewrite (np_sort_data _ _ SS). rewrite rev_data.
  rewrite nsum_data, np_cumsum_data. assert (LD : length (data (rev s)) = n) by (unfold data; now rewrite map_length). rewrite LD, LR.
  split. { rewrite combine_length, !map_length, !seq_length. lia. }
  intros k K. exists (total (firstn (S k) (rev s))). split.
  - split.
    + exists (firstn (S k) (rev s)). split; [exists (skipn (S k) (rev s)); rewrite firstn_skipn; now symmetry|]. split; auto. rewrite firstn_length. lia.
    + intros part (rest & Q) L. rewrite <- L. apply (top_is_best _ SD part rest). now rewrite Q.
  - assert (CN : forall i (a : list num) (b : list num) x y, nth_error a i = Some x -> nth_error b i = Some y -> nth_error (combine a b) i = Some (x, y)).
    { clear. induction i as [|i IH]; intros [|u a] [|w b] x y E1 E2; try discriminate; cbn in *; [congruence|auto]. }
    apply CN.
    + rewrite nth_error_map, (nth_error_nth' (seq 0 n) 0%nat) by (rewrite seq_length; lia). rewrite seq_nth by lia. cbn [option_map Nat.add]. unfold nnat. cbn [nadd].
      rewrite ndiv_fin by lra. now rewrite S_INR.
    + rewrite map_map, nth_error_map, (nth_error_nth' (seq 1 n) 0%nat) by (rewrite seq_length; lia). rewrite seq_nth by lia. cbn [option_map Nat.add].
      rewrite <- (total_perm _ _ P). now rewrite ndiv_fin.
Qed.

(** the shape of the curve; [curve k] is the share of the k+1 largest items *)
Theorem c75_lorenz_shape :
  forall xs, xs <> [] -> (forall x, In x xs -> 0 <= x) -> 0 < total xs ->
    let n := length xs in
    exists curve, (forall k, (k < n)%nat -> nth_error (lorenz_points (data xs)) k = Some (Fin (INR (S k) / INR n), Fin (curve k))) /\
      curve (n - 1)%nat = 1 /\
      (forall k, (k < n)%nat -> INR (S k) / INR n <= curve k <= 1) /\
      (forall k, (S k < n)%nat -> curve k <= curve (S k)) /\
      (forall k, (S (S k) < n)%nat -> curve (S (S k)) - curve (S k) <= curve (S k) - curve k).
Proof.
  intros xs NE PX T0 n. destruct (sorted_exists xs) as (s & SS). destruct (desc_of xs s SS) as [SD P].
  assert (LR : length (rev s) = n) by (now rewrite <- (Permutation_length P)).
  assert (N0 : (0 < n)%nat) by (unfold n; destruct xs; [congruence|simpl; lia]).
  assert (PN : 0 < INR n) by now apply lt_0_INR.
  assert (TT : total (rev s) = total xs) by (symmetry; now apply total_perm).
  assert (NN : forall k, 0 <= nth k (rev s) 0).
  { intros k. destruct (nth_in_or_default k (rev s) 0) as [I|E]; [apply PX; apply (Permutation_in _ (Permutation_sym P)); auto|rewrite E; lra]. }
  assert (TI : 0 < / total xs) by now apply Rinv_0_lt_compat.
  exists (fun k => total (firstn (S k) (rev s)) / total xs).
  assert (MONO : forall k, (S k < n)%nat -> total (firstn (S k) (rev s)) / total xs <= total (firstn (S (S k)) (rev s)) / total xs).
  { intros k K. rewrite (total_step (rev s) (S k)) by lia. apply Rmult_le_compat_r; [lra|]. specialize (NN (S k)). lra. }
  assert (LAST : total (firstn (S (n - 1)) (rev s)) / total xs = 1).
  { replace (S (n - 1)) with (length (rev s)) by lia. rewrite firstn_all, TT. field. lra. }
  split; [|split; [exact LAST|split; [|split; [exact MONO|]]]].
  - intros k K. destruct (c75_lorenz_points xs NE ltac:(lra)) as [_ H]. destruct (H k K) as (t & [(p1 & C1 & L1 & E1) M1] & ->).
    do 3 f_equal. f_equal. apply Rle_antisym.
    + destruct C1 as (rest & Q). rewrite <- E1, <- L1. apply (top_is_best _ SD p1 rest). now rewrite Q.
    + apply M1; [exists (skipn (S k) (rev s)); rewrite firstn_skipn; now symmetry|]. rewrite firstn_length. lia.
  - intros k K. split.
    + assert (X := top_above_average (rev s) (S k) SD ltac:(lia)). rewrite TT, LR in X.
      apply (Rmult_le_reg_r (INR n * total xs)); [now apply Rmult_lt_0_compat|].
      replace (INR (S k) / INR n * (INR n * total xs)) with (INR (S k) * total xs) by (field; lra).
      replace (total (firstn (S k) (rev s)) / total xs * (INR n * total xs)) with (INR n * total (firstn (S k) (rev s))) by (field; lra). exact X.
    + rewrite <- LAST. clear LAST. assert (G : forall j, (k + j < n)%nat -> total (firstn (S k) (rev s)) / total xs <= total (firstn (S (k + j)) (rev s)) / total xs).
      { induction j as [|j IH]; intros J; [rewrite Nat.add_0_r; lra|]. eapply Rle_trans; [apply IH; lia|]. replace (k + S j)%nat with (S (k + j)) in * by lia. apply MONO. lia. }
      replace (n - 1)%nat with (k + (n - 1 - k))%nat by lia. apply G. lia.
  - intros k K. rewrite (total_step (rev s) (S (S k))), (total_step (rev s) (S k)) by lia.
    assert (D : nth (S (S k)) (rev s) 0 <= nth (S k) (rev s) 0).
    { apply (desc_split (rev s) (S (S k)) SD).
      - rewrite <- (firstn_skipn (S (S k)) (rev s)) at 1. rewrite app_nth1 by (rewrite firstn_length; lia). apply nth_In. rewrite firstn_length. lia.
      - rewrite <- (firstn_skipn (S (S k)) (rev s)) at 1. rewrite app_nth2 by (rewrite firstn_length; lia). apply nth_In. rewrite firstn_length, skipn_length. lia. }
    set (a := total _). replace ((a + nth (S k) (rev s) 0 + nth (S (S k)) (rev s) 0) / total xs - (a + nth (S k) (rev s) 0) / total xs) with (nth (S (S k)) (rev s) 0 * / total xs) by (unfold Rdiv; ring).
    replace ((a + nth (S k) (rev s) 0) / total xs - a / total xs) with (nth (S k) (rev s) 0 * / total xs) by (unfold Rdiv; ring). apply Rmult_le_compat_r; lra.
Qed.

(** values that add up to zero cannot be drawn: every share is a NaN or infinite *)
Theorem c75_lorenz_zero_total_has_no_finite_point :
  forall xs k x y, total xs = 0 -> nth_error (lorenz_points (data xs)) k = Some (x, y) -> nis_fin y = false.
Proof.
  intros xs k x y T0 H. destruct (sorted_exists xs) as (s & SS). destruct (desc_of xs s SS) as [SD P].
  unfold lorenz_points in H. rewrite (np_sort_data _ _ SS) in H. rewrite rev_data in H.
  rewrite nsum_data, <- (total_perm _ _ P), T0 in H. apply nth_error_In, in_combine_r in H. apply in_map_iff in H as (c & <- & Hc).
  rewrite np_cumsum_data in Hc. apply in_map_iff in Hc as (j & <- & _).
  unfold ndiv. rewrite Req_bool_true by auto. unfold ninf_of. destruct (Rlt_bool 0 _); [reflexivity|]. destruct (Rlt_bool _ 0); reflexivity.
Qed.

(** values 1, 3, 1: sorted 1, 1, 3 and 3, 1, 1 *)
Lemma example_sorted : sorted_as [1; 3; 1] [1; 1; 3].
Proof.
  split; [apply perm_skip, perm_swap|]. repeat constructor; lra.
Qed.
Example c75_example : cumulative_points (data [1; 3; 1]) = [(Fin 1, Fin 1); (Fin 1, Fin (2 / 3)); (Fin 3, Fin (1 / 3))] /\
  at_least 1 [1; 3; 1] = 3%nat /\
  lorenz_points (data [1; 3; 1]) = [(Fin (1 / 3), Fin (3 / 5)); (Fin (2 / 3), Fin (4 / 5)); (Fin 1, Fin 1)].
Proof.
  assert (EF : forall x y : R, x = y -> Fin x = Fin y) by congruence.
  split; [|split].
  - unfold cumulative_points. rewrite (np_sort_data _ _ example_sorted). unfold data, nnat. cbn [length map seq combine nsub nneg nadd]. rewrite !ndiv_fin by (simpl; lra).
    repeat match goal with |- _ :: _ = _ :: _ => apply f_equal2 | |- (_, _) = (_, _) => apply f_equal2 | |- Fin _ = Fin _ => apply EF end; simpl; try reflexivity; field.
  - unfold at_least. cbn [filter]. destruct (Rle_dec 1 1), (Rle_dec 1 3); try lra; reflexivity.
  - unfold lorenz_points. rewrite (np_sort_data _ _ example_sorted). unfold data, nnat. cbn [rev app map length seq np_cumsum cumsum_from nsum nadd combine].
    rewrite !ndiv_fin by (simpl; lra). repeat match goal with |- _ :: _ = _ :: _ => apply f_equal2 | |- (_, _) = (_, _) => apply f_equal2 | |- Fin _ = Fin _ => apply EF end; simpl; try reflexivity; field.
Qed.

Print Assumptions c75_cumulative_curve.
Print Assumptions c75_lorenz_points.
Print Assumptions c75_lorenz_shape.
Print Assumptions c75_lorenz_zero_total_has_no_finite_point.
