(** Proofs about pivoting. *)
From Coq Require Import ZArith Reals List String Bool Lia Sorting.Sorted.
Require Import Verif.Base Verif.Num Verif.Frame Verif.F64 Verif.ListLib Verif.Design_Model Verif.Design_Spec
  Verif.Design_Proofs Verif.Periods_Model Verif.Periods_Proofs
  Verif.Rows_Model Verif.Rows_Spec Verif.Rows_Proofs Verif.Pivot_Model Verif.Pivot_Spec.
Import ListNotations.
Open Scope string_scope.
Open Scope Z_scope.

Lemma has_card_unique {A} (P : A -> Prop) n m : has_card P n -> has_card P m -> n = m.
Proof.
  intros (l & N1 & <- & H1) (l' & N2 & <- & H2).
  apply Nat.le_antisymm; apply NoDup_incl_length; auto; intros x Hx.
  - apply H2, H1, Hx.
  - apply H1, H2, Hx.
Qed.
Lemma card_range a b : has_card (fun w => a <= w < b) (Z.to_nat (b - a)).
Proof.
  exists (zrange a b). split; [apply zrange_NoDup|]. split; [apply zrange_length|]. intros. apply zrange_In.
Qed.
Lemma has_card_ext {A} (P Q : A -> Prop) n : (forall x, P x <-> Q x) -> has_card P n -> has_card Q n.
Proof. intros H (l & A1 & A2 & A3). exists l. split; auto. split; auto. intros x. rewrite A3. apply H. Qed.

Lemma combine_map_r {A B} (f : A -> B) l : combine l (map f l) = map (fun x => (x, f x)) l.
Proof. induction l; simpl; congruence. Qed.

Lemma assoc_map {A B} (eqb : A -> A -> bool) (HE : forall x y, eqb x y = true <-> x = y) (f : A -> B) l a :
  In a l -> assoc eqb a (map (fun x => (x, f x)) l) = Some (f a).
Proof.
  induction l as [|x l IH]; simpl; [tauto|]. destruct (eqb a x) eqn:E.
  - apply HE in E. now subst.
  - intros [<-|H]; auto. rewrite (proj2 (HE x x) eq_refl) in E. discriminate.
Qed.
Lemma assoc_none {A B} (eqb : A -> A -> bool) (HE : forall x y, eqb x y = true <-> x = y) (l : list (A * B)) a :
  ~ In a (map fst l) -> assoc eqb a l = None.
Proof.
  induction l as [|[x b] l IH]; simpl; auto. intros H. destruct (eqb a x) eqn:E.
  - apply HE in E. subst. tauto.
  - apply IH. tauto.
Qed.
Lemma paireqb_eq {A B} (ea : A -> A -> bool) (eb : B -> B -> bool) :
  (forall x y, ea x y = true <-> x = y) -> (forall x y, eb x y = true <-> x = y) ->
  forall x y, paireqb ea eb x y = true <-> x = y.
Proof.
  intros HA HB [a b] [c d]. unfold paireqb. simpl. rewrite andb_true_iff, HA, HB. split; [intros [-> ->]; auto|].
  intros H; inversion H; auto.
Qed.

Lemma zlleb_ord : ord (fun a b => if list_eq_dec Z.eq_dec a b then true else false) zlleb.
Proof.
  constructor.
  - intros a b. destruct (list_eq_dec Z.eq_dec a b); split; congruence.
  - induction x as [|a x IH]; intros [|b y] [|c z]; simpl; auto; try discriminate.
    destruct (Z.eqb_spec a b), (Z.eqb_spec b c), (Z.eqb_spec a c); try lia; try rewrite !Z.leb_le; try lia.
    intros; eapply IH; eauto.
  - induction x as [|a x IH]; intros [|b y]; simpl; auto.
    destruct (Z.eqb_spec a b), (Z.eqb_spec b a); try lia. apply IH.
  - induction x as [|a x IH]; intros [|b y]; simpl; auto; try discriminate.
    destruct (Z.eqb_spec a b), (Z.eqb_spec b a); try lia.
    subst. intros. f_equal. auto.
Qed.
Lemma akey_ord : ord akeqb akleb.
Proof. apply ord_pair; [apply ord_string|apply zlleb_ord]. Qed.

Lemma position_assoc metrics m (vs : list num) : In m metrics ->
  match assoc String.eqb m (combine metrics vs) with Some v => v | None => NaN end = nth (position m metrics) vs NaN.
Proof.
  revert vs. induction metrics as [|x ms IH]; intros vs; [intros []|]. intros H. simpl.
  destruct vs as [|v vs]; simpl.
  - destruct (String.eqb m x); [reflexivity|]. destruct (position m ms); reflexivity.
  - destruct (String.eqb_spec m x); [reflexivity|]. destruct H as [->|H]; [congruence|]. apply IH; auto.
Qed.
Lemma position_lt m metrics : In m metrics -> (position m metrics < List.length metrics)%nat.
Proof.
  induction metrics as [|x ms IH]; [intros []|]. intros H. simpl. destruct (String.eqb_spec m x); [lia|].
  destruct H as [->|H]; [congruence|]. apply IH in H. lia.
Qed.

Section P.
Context {K : Type} (keqb kleb : K -> K -> bool) (HO : ord keqb kleb).
Let kp_ord : ord (kp_eqb keqb) (kp_leb keqb kleb) := ord_pair _ _ _ _ HO ord_string.

Definition is_at (lab : Z -> label) (k : K) (s : string) (r : prow K) : bool :=
  keqb (p_key r) k && match row_label lab r with Some s' => String.eqb s' s | None => false end.
Lemma is_at_iff lab k s r : is_at lab k s r = true <-> p_key r = k /\ row_label lab r = Some s.
Proof.
  unfold is_at. rewrite andb_true_iff, (ord_eq _ _ HO). destruct (row_label lab r) as [s'|].
  - rewrite String.eqb_eq. split; intros [? ?]; split; congruence.
  - split; intros [? ?]; discriminate.
Qed.

Lemma labelled_filter lab (rows : list (prow K)) (k : K) s :
  filter (fun r => kp_eqb keqb (fst r) (k, s)) (labelled lab rows) =
  map (fun r => ((k, s), p_vals r)) (filter (is_at lab k s) rows).
Proof.
  induction rows as [|r rows IH]; simpl; auto. unfold labelled in *. simpl. rewrite filter_app, IH. clear IH.
  destruct (is_at lab k s r) eqn:E.
  - apply is_at_iff in E as [E1 E2]. rewrite E2. simpl.
    rewrite (proj2 (ord_eq _ _ kp_ord (p_key r, s) (k, s))) by congruence. simpl. now rewrite E1.
  - destruct (row_label lab r) as [s'|] eqn:E'; simpl; auto.
    destruct (kp_eqb keqb (p_key r, s') (k, s)) eqn:X; auto. apply (ord_eq _ _ kp_ord) in X. inversion X; subst.
    assert (is_at lab (p_key r) s r = true) by (apply is_at_iff; auto). congruence.
Qed.

Lemma labelled_keys lab (rows : list (prow K)) (k : K) s :
  In (k, s) (map fst (labelled lab rows)) <-> exists r, In r rows /\ p_key r = k /\ row_label lab r = Some s.
Proof.
  unfold labelled. rewrite in_map_iff. split.
  - intros ([ks vs] & E & H). simpl in E. subst ks. apply in_flat_map in H as (r & Hr & H).
    destruct (row_label lab r) as [s'|] eqn:E; [|destruct H]. destruct H as [H|[]]. inversion H; subst. eauto.
  - intros (r & Hr & <- & E). exists ((p_key r, s), p_vals r). split; auto. apply in_flat_map. exists r. split; auto.
    rewrite E. now left.
Qed.

Lemma find_map_keys {A B} (eqb : A -> A -> bool) (HE : forall x y, eqb x y = true <-> x = y) (f : A -> B) ks a :
  find (fun g => eqb (fst g) a) (map (fun x => (x, f x)) ks) = if existsb (eqb a) ks then Some (a, f a) else None.
Proof.
  induction ks as [|x ks IH]; simpl; auto. destruct (eqb x a) eqn:E.
  - apply HE in E. subst. rewrite (proj2 (HE a a) eq_refl). reflexivity.
  - rewrite IH. destruct (eqb a x) eqn:E'; auto. apply HE in E'. subst. rewrite (proj2 (HE x x) eq_refl) in E. discriminate.
Qed.

Lemma sums_finite (l : list num) : Forall not_infinite l -> exists r, nsum (map nan0 l) = Fin r.
Proof.
  induction 1 as [|x l [H1 H2] _ (r & IH)]; simpl; [eauto|]. rewrite IH.
  destruct x; try congruence; simpl; eauto.
Qed.

Definition calm (rows : list (prow K)) : Prop := forall r, In r rows -> Forall not_infinite (p_vals r).

Lemma group_sums_at lab rows k s n :
  group_sums n (group_of (kp_eqb keqb) fst (labelled lab rows) (k, s)) =
  map (fun j => nsum (map (fun r => nan0 (nth j (p_vals r) NaN)) (filter (is_at lab k s) rows))) (seq 0 n).
Proof.
  unfold group_sums, group_of. rewrite labelled_filter. apply map_ext. intros j. now rewrite map_map.
Qed.

Lemma agged_eq lab rows n : calm rows -> (0 < n)%nat ->
  agged keqb kleb lab n rows =
  map (fun ks => (ks, group_sums n (group_of (kp_eqb keqb) fst (labelled lab rows) ks)))
      (group_keys (kp_eqb keqb) (kp_leb keqb kleb) fst (labelled lab rows)).
Proof.
  intros HC Hn. unfold agged, groupby. rewrite map_map. cbn [fst snd]. apply filter_all.
  intros g Hg. apply in_map_iff in Hg as ([k s] & <- & _). cbn [snd]. rewrite group_sums_at.
  destruct n as [|n]; [lia|]. cbn [seq map forallb].
  destruct (sums_finite (map (fun r => nth 0 (p_vals r) NaN) (filter (is_at lab k s) rows))) as (x & E).
  - apply Forall_forall. intros y Hy. apply in_map_iff in Hy as (r & <- & Hr). apply filter_In in Hr as [Hr _].
    specialize (HC r Hr). destruct (p_vals r) as [|v vs]; [split; discriminate|]. now inversion HC.
  - rewrite map_map in E. rewrite E. reflexivity.
Qed.

Lemma agged_keys lab rows n : calm rows -> (0 < n)%nat -> forall k s,
  In (k, s) (map fst (agged keqb kleb lab n rows)) <-> exists r, In r rows /\ p_key r = k /\ row_label lab r = Some s.
Proof.
  intros HC Hn k s. rewrite agged_eq by auto. rewrite map_map. cbn [fst]. rewrite map_id.
  rewrite (group_keys_In _ _ _ kp_ord). rewrite <- labelled_keys, in_map_iff. split; intros (r & H1 & H2); eauto.
Qed.

Lemma pivot_cell_total lab rows metrics k m s : calm rows -> In m metrics ->
  pivot_cell keqb (agged keqb kleb lab (List.length metrics) rows) k (position m metrics) s =
  total (is_at lab k s) (metric_value metrics m) rows.
Proof.
  intros HC Hm. rewrite total_filter. unfold pivot_cell.
  assert (Hn := position_lt _ _ Hm). rewrite agged_eq by (auto; lia).
  rewrite (find_map_keys _ (ord_eq _ _ kp_ord)).
  assert (EQ : nsum (map (fun r => nan0 (metric_value metrics m r)) (filter (is_at lab k s) rows)) =
    nsum (map (fun r => nan0 (nth (position m metrics) (p_vals r) NaN)) (filter (is_at lab k s) rows))).
  { f_equal. apply map_ext. intros r. unfold metric_value. now rewrite position_assoc. }
  rewrite EQ. clear EQ.
  destruct (existsb _ _) eqn:E.
  - cbn [snd]. rewrite group_sums_at.
    rewrite (nth_indep _ NaN (nsum (map (fun r => nan0 (nth 0 (p_vals r) NaN)) (filter (is_at lab k s) rows))))
      by (rewrite map_length, seq_length; lia).
    rewrite (map_nth (fun j => nsum (map (fun r => nan0 (nth j (p_vals r) NaN)) (filter (is_at lab k s) rows)))).
    rewrite seq_nth by lia. rewrite Nat.add_0_l.
    destruct (sums_finite (map (fun r => nth (position m metrics) (p_vals r) NaN) (filter (is_at lab k s) rows))) as (x & X).
    + apply Forall_forall. intros y Hy. apply in_map_iff in Hy as (r & <- & Hr). apply filter_In in Hr as [Hr _].
      specialize (HC r Hr). rewrite Forall_forall in HC.
      destruct (Nat.lt_ge_cases (position m metrics) (List.length (p_vals r))) as [L|L].
      * apply HC. now apply nth_In.
      * rewrite nth_overflow by auto. split; discriminate.
    + rewrite map_map in X. rewrite X. reflexivity.
  - replace (filter (is_at lab k s) rows) with (@nil (prow K)); [reflexivity|]. symmetry. apply filter_none.
    intros r Hr. destruct (is_at lab k s r) eqn:X; auto. apply is_at_iff in X as [X1 X2].
    assert (Y : In (k, s) (group_keys (kp_eqb keqb) (kp_leb keqb kleb) fst (labelled lab rows))).
    { apply (group_keys_In _ _ _ kp_ord). assert (Z : In (k, s) (map fst (labelled lab rows))) by (apply labelled_keys; eauto).
      apply in_map_iff in Z as (g & ? & ?). eauto. }
    apply (existsb_eqb_In _ (ord_eq _ _ kp_ord)) in Y. congruence.
Qed.

(* ------------------------------------------------------------------ *)
(** tables given by a function *)
Definition tab (cols : list (string * string)) (keys : list K) (F : K -> string * string -> num) : table K :=
  mkT cols (map (fun k => (k, map (F k) cols)) keys).

Lemma divide_tab s w cols keys F :
  divide_period s w (tab cols keys F) =
  tab cols keys (fun k c => if String.eqb s (snd c) then ndiv (F k c) (Fin (IZR w)) else F k c).
Proof.
  unfold divide_period, tab. cbn [t_cols t_rows]. f_equal. rewrite map_map. apply map_ext. intros k. cbn [fst snd].
  f_equal. rewrite combine_map_r, map_map. reflexivity.
Qed.
Lemma tab_ext cols keys F G : (forall k c, In k keys -> In c cols -> F k c = G k c) -> tab cols keys F = tab cols keys G.
Proof.
  intros H. unfold tab. f_equal. apply map_ext_in. intros k Hk. f_equal. apply map_ext_in. auto.
Qed.
Lemma divide_if_tab s w cols keys F :
  divide_if_present s w (tab cols keys F) =
  tab cols keys (fun k c => if String.eqb s (snd c) then ndiv (F k c) (Fin (IZR w)) else F k c).
Proof.
  unfold divide_if_present. destruct (has_period s (tab cols keys F)) eqn:E; [apply divide_tab|].
  apply tab_ext. intros k c Hk Hc. unfold has_period in E. rewrite existsb_false_iff in E. now rewrite (E c Hc).
Qed.

Lemma entry_tab cols keys F k m s : In k keys -> In (m, s) cols -> entry keqb (tab cols keys F) k m s = Some (F k (m, s)).
Proof.
  intros Hk Hc. unfold entry, tab. cbn [t_rows t_cols].
  rewrite (assoc_map keqb (ord_eq _ _ HO) (fun k => map (F k) cols)) by auto.
  rewrite combine_map_r.
  apply (assoc_map _ (paireqb_eq _ _ String.eqb_eq String.eqb_eq) (F k)). auto.
Qed.

Definition keys_at lab n rows := isort kleb (dedup keqb (map (fun g => fst (fst g)) (agged keqb kleb lab n rows))).
Definition cols_at lab metrics rows :=
  list_prod (isort sleb metrics)
    (isort sleb (dedup String.eqb (map (fun g => snd (fst g)) (agged keqb kleb lab (List.length metrics) rows)))).

Lemma pivot_table_tab lab metrics rows : calm rows ->
  pivot_table keqb kleb lab metrics rows =
  tab (cols_at lab metrics rows) (keys_at lab (List.length metrics) rows)
    (fun k c => total (is_at lab k (snd c)) (metric_value metrics (fst c)) rows).
Proof.
  intros HC. unfold pivot_table. fold (cols_at lab metrics rows). fold (keys_at lab (List.length metrics) rows).
  unfold tab. f_equal. apply map_ext. intros k. f_equal. apply map_ext_in. intros [m s] H.
  apply pivot_cell_total; auto. apply in_prod_iff in H as [H _]. now apply isort_In in H.
Qed.

Lemma keys_at_In lab n rows k : calm rows -> (0 < n)%nat ->
  In k (keys_at lab n rows) <-> exists r s, In r rows /\ p_key r = k /\ row_label lab r = Some s.
Proof.
  intros HC Hn. unfold keys_at. rewrite isort_In, (dedup_In _ (ord_eq _ _ HO)).
  rewrite <- (map_map fst fst), in_map_iff. split.
  - intros ([k' s] & <- & H). apply agged_keys in H as (r & ?); eauto.
  - intros (r & s & H). exists (k, s). split; auto. apply agged_keys; eauto.
Qed.
Lemma keys_at_sorted lab n rows : StronglySorted (fun a b => kleb a b = true /\ a <> b) (keys_at lab n rows).
Proof.
  apply StronglySorted_strict; [apply isort_NoDup, dedup_NoDup; apply HO|]. apply isort_sorted; apply HO.
Qed.
Lemma cols_at_In lab metrics rows m s : calm rows ->
  In (m, s) (cols_at lab metrics rows) <-> In m metrics /\ exists r, In r rows /\ row_label lab r = Some s.
Proof.
  intros HC. unfold cols_at. rewrite in_prod_iff, !isort_In, (dedup_In _ String.eqb_eq).
  rewrite <- (map_map fst snd), in_map_iff. split; intros [Hm H]; (split; [auto|]).
  - destruct H as ([k s'] & <- & H). apply agged_keys in H as (r & H1 & _ & H2); eauto.
    destruct metrics; [destruct Hm|simpl; lia].
  - destruct H as (r & H1 & H2). exists (p_key r, s). split; auto. apply agged_keys; eauto.
    destruct metrics; [destruct Hm|simpl; lia].
Qed.

Definition weeks_of (p : params) (s : string) : Z :=
  if String.eqb s "pretest" then pretest p
  else if String.eqb s "test" then runtime p
  else match washout p with
       | None => 0
       | Some w => if String.eqb s "test_1" || String.eqb s "test_2" then (runtime p - 2 * w) / 2 else w
       end.

Lemma weeks_of_card p d lab start s : mk_design p = Ok d -> label_fun p start = Ok lab ->
  (exists w, lab w = Some s) -> has_card (fun w => lab w = Some s) (Z.to_nat (weeks_of p s)) /\ 0 < weeks_of p s.
Proof.
  intros H L (w0 & E0). apply mk_design_iff in H as [D _]. unfold label_fun in L.
  assert (CARD : forall a n, (forall w, lab w = Some s <-> in_span a n w) -> weeks_of p s = n ->
    has_card (fun w => lab w = Some s) (Z.to_nat (weeks_of p s)) /\ 0 < weeks_of p s).
  { intros a n HI ->. split.
    - replace (Z.to_nat n) with (Z.to_nat (a + n - a)) by (f_equal; lia).
      eapply has_card_ext; [|apply card_range]. intros w. rewrite HI. reflexivity.
    - apply HI in E0. unfold in_span in E0. lia. }
  destruct (crossover p) eqn:C.
  - destruct (washout p) as [wash|] eqn:W; [|discriminate]. inversion L; subst lab. clear L.
    assert (HH : exists half, runtime p = 2 * half /\ 0 <= wash /\ wash < half /\ 0 <= pretest p).
    { destruct (ok_crossover _ D C) as (w & Ew & W1 & W2 & (h & Eh)). rewrite W in Ew. inversion Ew; subst w.
      exists h. pose proof (ok_pretest _ D). lia. }
    destruct HH as (half & ER & H1 & H2 & H3). rewrite ER in CARD, E0 |- *.
    assert (EH : (2 * half - 2 * wash) / 2 = half - wash) by (replace (2 * half - 2 * wash) with ((half - wash) * 2) by ring; apply Z.div_mul; lia).
    pose proof (crossover_label_spec start (pretest p) half wash w0 H3 H1 H2) as SP.
    assert (CL := fun w => crossover_label_iff start (pretest p) half wash w H3 H1 H2). cbv zeta in CL.
    unfold crossover_spec in SP. rewrite E0 in SP.
    destruct SP as [[SP _]|[[SP _]|[[SP _]|[[SP _]|[[SP _]|[SP _]]]]]]; inversion SP; subst s.
    + apply (CARD (start - pretest p) (pretest p)); [intros w; apply CL|reflexivity].
    + apply (CARD start wash); [intros w; apply CL|]. unfold weeks_of. rewrite W. reflexivity.
    + apply (CARD (start + wash) (half - wash)); [intros w; apply CL|]. unfold weeks_of. rewrite W, ER. exact EH.
    + apply (CARD (start + half) wash); [intros w; apply CL|]. unfold weeks_of. rewrite W. reflexivity.
    + apply (CARD (start + half + wash) (half - wash)); [intros w; apply CL|]. unfold weeks_of. rewrite W, ER. exact EH.
  - inversion L; subst lab. clear L.
    assert (H3 : 0 <= pretest p /\ 0 <= runtime p) by (split; [apply (ok_pretest _ D)|pose proof (ok_runtime _ D); lia]). destruct H3 as [H3 H4].
    pose proof (regular_label_spec start (pretest p) (runtime p) w0 H3 H4) as SP.
    assert (CL := fun w => regular_label_iff start (pretest p) (runtime p) w H3 H4). cbv zeta in CL.
    unfold regular_spec in SP. rewrite E0 in SP.
    destruct SP as [[SP _]|[[SP _]|[SP _]]]; inversion SP; subst s.
    + apply (CARD (start - pretest p) (pretest p)); [intros w; apply CL|reflexivity].
    + apply (CARD start (runtime p)); [intros w; apply CL|reflexivity].
Qed.
End P.
