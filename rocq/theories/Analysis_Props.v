(** C62-C64: what the analysis of a pivoted table computes, and how much of a synthetic effect it finds. *)
From Coq Require Import ZArith Reals Lra Lia List String Bool Permutation Sorting.Sorted.
From Flocq Require Import Core BinarySingleNaN.
Require Import Verif.Base Verif.Num Verif.NumOrd Verif.F64 Verif.ListLib Verif.Design_Model Verif.Design_Spec Verif.Design_Props
  Verif.Trimmed_Model Verif.Trimmed_Spec Verif.Moments Verif.Trimmed_Proofs Verif.Trimmed_Real Verif.Trimmed_Props
  Verif.Cuped_Model Verif.Cuped_Props Verif.Stats_Model Verif.Stats_Num Verif.Stats_Props Verif.Tests_Proofs
  Verif.Tests_Props Verif.Tests_Props2 Verif.Pivot_Model Verif.Analysis_Spec Verif.Analysis_Model.
Import ListNotations.
Open Scope string_scope.
Open Scope list_scope.
Open Scope R_scope.

(** *** C62: aligning the two periods of a crossover experiment *)

Lemma arm_is_1 a : arm_is 1 a = in_treatment_arm a.
Proof. destruct a as [[|[p|p|]|p]|]; reflexivity. Qed.
Lemma first_mask {V} (l : list (cross V)) : map (arm_is 1) (map x_arm l) = map (fun c => in_treatment_arm (x_arm c)) l.
Proof. rewrite map_map. apply map_ext. intros. apply arm_is_1. Qed.

Lemma replace_map {V A} (m : V -> bool) (f g : V -> A) l :
  replace_where (map m l) (map f l) (map g l) = map (fun c => if m c then g c else f c) l.
Proof. unfold replace_where. induction l as [|c l IH]; simpl; auto. now rewrite IH. Qed.

(** without de-meaning, the raw value while treated next to the raw value while not, item by item *)
Theorem c62_pairs_raw_values :
  forall (l : list (cross num)),
    prepare_crossover (map x_one l) (map x_two l) (map x_arm l) false = (map while_treated l, map while_control l).
Proof.
  intros l. unfold prepare_crossover. rewrite first_mask, map_map, !replace_map.
  unfold while_treated, while_control. f_equal. apply map_ext. intros c. now destruct (in_treatment_arm (x_arm c)).
Qed.

Definition ones (l : list (cross R)) : list R := map x_one l.
Definition twos (l : list (cross R)) : list R := map x_two l.
(** de-meaned values *)
Definition one_dm (l : list (cross R)) (c : cross R) : R := x_one c - avg (ones l).
Definition two_dm (l : list (cross R)) (c : cross R) : R := x_two c - avg (twos l).
Definition treated_dm l c : R := if in_treatment_arm (x_arm c) then one_dm l c else two_dm l c.
Definition control_dm l c : R := if in_treatment_arm (x_arm c) then two_dm l c else one_dm l c.

Lemma map_shape {V A B} (f : V -> A) (g : A -> B) l : map g (map f l) = map (fun c => g (f c)) l.
Proof. apply map_map. Qed.

Lemma prepare_demeaned l : l <> [] ->
  let adj := avg (map while_control l) - avg (map (control_dm l) l) in
  prepare_crossover (map x_one (map finite l)) (map x_two (map finite l)) (map x_arm (map finite l)) true =
  (data (map (fun c => treated_dm l c + adj) l), data (map (fun c => control_dm l c + adj) l)).
Proof.
  intros N adj. unfold prepare_crossover.
  assert (NE : forall (f : cross R -> R), map f l <> []) by (intros f E; now apply map_eq_nil in E).
  assert (E1 : map x_one (map finite l) = map Fin (ones l)) by (unfold ones; rewrite !map_map; now apply map_ext).
  assert (E2 : map x_two (map finite l) = map Fin (twos l)) by (unfold twos; rewrite !map_map; now apply map_ext).
  assert (E3 : map (arm_is 1) (map x_arm (map finite l)) = map (fun c => in_treatment_arm (x_arm c)) l).
  { rewrite first_mask, map_map. now apply map_ext. }
  rewrite E1, E2, E3. unfold unshift, shift. rewrite !nmean_fin by apply NE. rewrite !resid_fin.
  unfold ones, twos. rewrite !map_map. rewrite !replace_map.
  assert (Q1 : map (fun c => if in_treatment_arm (x_arm c) then Fin (x_two c - avg (map x_two l)) else Fin (x_one c - avg (map x_one l))) l =
               map Fin (map (control_dm l) l)).
  { rewrite map_map. apply map_ext. intros c. unfold control_dm, one_dm, two_dm. now destruct (in_treatment_arm (x_arm c)). }
  assert (Q2 : map (fun c => if negb (in_treatment_arm (x_arm c)) then Fin (x_two c - avg (map x_two l)) else Fin (x_one c - avg (map x_one l))) l =
               map Fin (map (treated_dm l) l)).
  { rewrite map_map. apply map_ext. intros c. unfold treated_dm, one_dm, two_dm. now destruct (in_treatment_arm (x_arm c)). }
  assert (Q3 : map (fun c => if in_treatment_arm (x_arm c) then Fin (x_two c) else Fin (x_one c)) l = map Fin (map while_control l)).
  { rewrite map_map. apply map_ext. intros c. unfold while_control. now destruct (in_treatment_arm (x_arm c)). }
  rewrite Q1, Q2, Q3, !nmean_fin by apply NE. unfold data. rewrite !map_map. reflexivity.
Qed.

(** treatment minus control, item by item *)
Definition signed (c : cross R) (x : R) : R := if in_treatment_arm (x_arm c) then x else - x.

Lemma minus_map {A} (f g : A -> R) l : minus (map f l) (map g l) = map (fun c => f c - g c) l.
Proof. unfold minus. now rewrite combine_map2, map_map. Qed.

Theorem c62_demeaned :
  forall l, l <> [] ->
    exists tr co,
      prepare_crossover (map x_one (map finite l)) (map x_two (map finite l)) (map x_arm (map finite l)) true = (data tr, data co) /\
      List.length tr = List.length l /\ List.length co = List.length l /\
      avg co = avg (map while_control l) /\
      minus tr co = map (fun c => signed c ((x_one c - avg (ones l)) - (x_two c - avg (twos l)))) l.
Proof.
  intros l N. rewrite (prepare_demeaned l N). set (adj := avg (map while_control l) - _).
  eexists. eexists. split; [reflexivity|]. rewrite !map_length. split; auto. split; auto. split.
  - fold (Av l (fun c => control_dm l c + adj)). rewrite Av_plus, Av_const by auto. unfold adj, Av. ring.
  - rewrite minus_map. apply map_ext. intros c. unfold treated_dm, control_dm, signed, one_dm, two_dm.
    destruct (in_treatment_arm (x_arm c)); ring.
Qed.

(** a difference between the two periods common to all items drops out *)
Definition in_periods (a b : R) (c : cross R) : cross R := mkX (x_arm c) (x_one c + a) (x_two c + b).
Theorem c62_common_period_effects_cancel :
  forall l a b tr co tr' co', l <> [] ->
    let l' := map (in_periods a b) l in
    prepare_crossover (map x_one (map finite l)) (map x_two (map finite l)) (map x_arm (map finite l)) true = (data tr, data co) ->
    prepare_crossover (map x_one (map finite l')) (map x_two (map finite l')) (map x_arm (map finite l')) true = (data tr', data co') ->
    minus tr' co' = minus tr co.
Proof.
  intros l a b tr co tr' co' N l' H H'.
  assert (INJ : forall x y, data x = data y -> x = y).
  { unfold data. induction x as [|u x IH]; intros [|v y] E; try discriminate; auto. simpl in E. inversion E. f_equal; auto. }
  assert (N' : l' <> []) by (intros E; now apply map_eq_nil in E).
  destruct (c62_demeaned l N) as (u & v & E & _ & _ & _ & M). destruct (c62_demeaned l' N') as (u' & v' & E' & _ & _ & _ & M').
  rewrite H in E. rewrite H' in E'.
  assert (tr = u) by (apply INJ; congruence). assert (co = v) by (apply INJ; congruence).
  assert (tr' = u') by (apply INJ; congruence). assert (co' = v') by (apply INJ; congruence). subst.
  rewrite M, M'. unfold l' at 3. rewrite map_map. apply map_ext. intros c. unfold signed, in_periods. cbn [x_arm x_one x_two].
  assert (A1 : avg (ones l') = avg (ones l) + a).
  { unfold l', ones. rewrite map_map. cbn [x_one in_periods]. fold (Av l (fun c => x_one c + a)). rewrite Av_plus, Av_const; auto. }
  assert (A2 : avg (twos l') = avg (twos l) + b).
  { unfold l', twos. rewrite map_map. cbn [x_two in_periods]. fold (Av l (fun c => x_two c + b)). rewrite Av_plus, Av_const; auto. }
  rewrite A1, A2. destruct (in_treatment_arm (x_arm c)); ring.
Qed.

(** without de-meaning it does not *)
Theorem c62_common_period_effects_cancel_without_demeaning_refuted :
  exists l a b tr co tr' co',
    let l' := map (in_periods a b) l in
    prepare_crossover (map x_one (map finite l)) (map x_two (map finite l)) (map x_arm (map finite l)) false = (data tr, data co) /\
    prepare_crossover (map x_one (map finite l')) (map x_two (map finite l')) (map x_arm (map finite l')) false = (data tr', data co') /\
    minus tr' co' <> minus tr co.
Proof.
  exists [mkX (Some 1%Z) 3 2; mkX (Some 0%Z) 5 1], 0, 7, [3; 1], [2; 5], [3 + 0; 1 + 7], [2 + 7; 5 + 0].
  split; [reflexivity|]. split; [reflexivity|]. unfold minus. simpl. intros E. inversion E. lra.
Qed.

(** *** Reading the table *)
Section Read.
Context {K : Type} (arm : K -> option Z).

Lemma pair_eqb_eq (a b : string * string) : (fst a =? fst b) && (snd a =? snd b) = true <-> a = b.
Proof.
  rewrite andb_true_iff, !String.eqb_eq. destruct a, b; simpl. split; [intros [-> ->]; auto|intros E; inversion E; auto].
Qed.

Lemma column_index_nth c : forall l i, NoDup l -> nth_error l i = Some c -> column_index c l = Some i.
Proof.
  induction l as [|x l IH]; intros [|i] ND H; try discriminate; inversion ND as [|y z N1 N2]; subst.
  - inversion H; subst. simpl. now rewrite !String.eqb_refl.
  - cbn [column_index]. cbn [nth_error] in H. destruct (_ && _) eqn:E.
    + apply pair_eqb_eq in E. subst. destruct N1. now apply nth_error_In in H.
    + now rewrite (IH i).
Qed.
Lemma column_index_none c : forall l, ~ In c l -> column_index c l = None.
Proof.
  induction l as [|x l IH]; intros H; simpl; auto. destruct (_ && _) eqn:E.
  - apply pair_eqb_eq in E. subst. destruct H. now left.
  - rewrite IH; auto. intros X. apply H. now right.
Qed.

Lemma column_at_holds (t : table K) i v :
  Forall2 (fun r x => nth_error (snd r) i = Some x) (t_rows t) v -> column_at t i = v.
Proof.
  unfold column_at. induction 1 as [|r x l l' H _ IH]; simpl; auto. rewrite IH. f_equal. now apply nth_error_nth.
Qed.

Lemma sget_columns (F : nat -> list num) m s : forall (l : list (string * string)) off i, NoDup l -> nth_error l i = Some (m, s) ->
  sget s (map (fun ic : nat * (string * string) => (snd (snd ic), F (fst ic)))
     (filter (fun ic => m =? fst (snd ic)) (combine (seq off (List.length l)) l))) = Some (F (off + i)%nat).
Proof.
  induction l as [|[m' s'] l IH]; intros off [|i] ND H; try discriminate; inversion ND as [|y z N1 N2]; subst.
  - inversion H; subst. cbn [List.length seq combine filter fst snd]. rewrite String.eqb_refl. cbn [map sget fst snd].
    rewrite String.eqb_refl. now rewrite Nat.add_0_r.
  - cbn [nth_error] in H. assert (E := IH (S off) i N2 H).
    cbn [List.length seq combine filter fst snd]. replace (off + S i)%nat with (S off + i)%nat by lia.
    destruct (String.eqb_spec m m') as [<-|]; [|exact E]. cbn [map sget fst snd].
    destruct (String.eqb_spec s s') as [<-|]; [|exact E]. destruct N1. now apply nth_error_In in H.
Qed.
Lemma sget_absent (F : nat -> list num) m s : forall (l : list (string * string)) off, ~ In (m, s) l ->
  sget s (map (fun ic : nat * (string * string) => (snd (snd ic), F (fst ic)))
     (filter (fun ic => m =? fst (snd ic)) (combine (seq off (List.length l)) l))) = None.
Proof.
  induction l as [|[m' s'] l IH]; intros off H; auto.
  cbn [List.length seq combine filter fst snd]. assert (E := IH (S off) (fun X => H (or_intror X))).
  destruct (String.eqb_spec m m') as [<-|]; [|exact E]. cbn [map sget fst snd].
  destruct (String.eqb_spec s s') as [<-|]; [|exact E]. destruct H. now left.
Qed.

(** the columns of a metric *)
Lemma metric_subset_spec (t : table K) m s v : NoDup (t_cols t) -> holds t (m, s) v ->
  exists sub, metric_subset arm t true m = Ok sub /\ s_arms sub = Some (map (fun r => arm (fst r)) (t_rows t)) /\
    (forall s v, holds t (m, s) v -> sget s (s_periods sub) = Some v) /\
    (forall s, ~ In (m, s) (t_cols t) -> sget s (s_periods sub) = None).
Proof.
  intros ND (i & Hi & _). unfold metric_subset.
  replace (existsb _ _) with true.
  2:{ symmetry. apply existsb_exists. exists (m, s). split; [now apply nth_error_In in Hi|apply String.eqb_refl]. }
  eexists. split; [reflexivity|]. cbn [s_arms s_periods]. split; auto. split.
  - intros s' v' (j & Hj & F). assert (E := sget_columns (column_at t) m s' (t_cols t) 0 j ND Hj).
    rewrite E. simpl. f_equal. now apply column_at_holds.
  - intros s' N. now apply sget_absent.
Qed.

(** changing one column *)
Lemma update_column_holds (t : table K) c f d v : NoDup (t_cols t) -> holds t d v ->
  t_cols (update_column t c f) = t_cols t /\ map fst (t_rows (update_column t c f)) = map fst (t_rows t) /\
  holds (update_column t c f) d
    (if (fst c =? fst d) && (snd c =? snd d) then zip_with f (map fst (t_rows t)) v else v).
Proof.
  intros ND (j & Hj & F). unfold update_column.
  destruct (column_index c (t_cols t)) as [i|] eqn:EI.
  - cbn [t_cols t_rows]. split; auto. split; [rewrite map_map; now apply map_ext|]. exists j. cbn [t_cols t_rows]. split; auto.
    assert (HC : (fst c =? fst d) && (snd c =? snd d) = Nat.eqb j i).
    { apply eq_true_iff_eq. rewrite pair_eqb_eq, Nat.eqb_eq. split.
      - intros ->. assert (X := column_index_nth d _ j ND Hj). congruence.
      - intros ->. clear - EI Hj. revert i EI Hj. induction (t_cols t) as [|x l IH]; intros i EI Hj; [discriminate|].
        cbn [column_index] in EI. destruct (_ && _) eqn:E.
        + apply pair_eqb_eq in E. inversion EI; subst. simpl in Hj. congruence.
        + destruct (column_index c l) as [i'|]; [|discriminate]. cbn in EI. inversion EI; subst. simpl in Hj. eauto. }
    rewrite HC. clear HC EI Hj ND.
    assert (NTH : forall (g : nat * num -> num) vs off k x, nth_error vs k = Some x ->
      nth_error (map g (combine (seq off (List.length vs)) vs)) k = Some (g ((off + k)%nat, x))).
    { intros g. induction vs as [|y vs IH]; intros off [|k] x E; try discriminate; cbn [List.length seq combine map nth_error].
      - simpl in E. inversion E; subst. now rewrite Nat.add_0_r.
      - simpl in E. rewrite (IH (S off) k x E). do 2 f_equal. f_equal. lia. }
    induction F as [|[k vs] x l l' H _ IH]; [destruct (Nat.eqb j i); constructor|].
    cbn [map fst snd]. cbn [snd] in H.
    destruct (Nat.eqb j i) eqn:E.
    + cbn [map fst zip_with combine]. unfold zip_with in *. cbn [combine map fst snd]. constructor; [|exact IH]. cbn [snd].
      rewrite (NTH _ vs 0%nat j x H). cbn [fst snd Nat.add]. now rewrite E.
    + constructor; [|exact IH]. cbn [snd]. rewrite (NTH _ vs 0%nat j x H). cbn [fst snd Nat.add]. now rewrite E.
  - assert (HC : (fst c =? fst d) && (snd c =? snd d) = false).
    { apply not_true_iff_false. rewrite pair_eqb_eq. intros ->. rewrite (column_index_nth d _ j ND Hj) in EI. discriminate. }
    rewrite HC. split; auto. split; auto. now exists j.
Qed.
End Read.

(** *** C63, C64: synthetic effects *)

Lemma zip_with_map {A B D V} (f : A -> B -> D) (g : V -> A) (h : V -> B) l :
  zip_with f (map g l) (map h l) = map (fun c => f (g c) (h c)) l.
Proof. unfold zip_with. now rewrite combine_map2, map_map. Qed.
Lemma zip_with_map_l {A A' B D} (f : A -> B -> D) (g : A' -> A) l m :
  zip_with f (map g l) m = zip_with (fun x y => f (g x) y) l m.
Proof. unfold zip_with. revert m. induction l as [|x l IH]; intros [|y m]; simpl; auto. now rewrite IH. Qed.

Lemma has_column_iff {K} (t : table K) c : has_column t c = true <-> In c (t_cols t).
Proof.
  unfold has_column. induction (t_cols t) as [|x l IH]; simpl; [split; [discriminate|tauto]|].
  destruct (_ && _) eqn:E.
  - apply pair_eqb_eq in E. subst. split; auto.
  - destruct (column_index c l); simpl in *; rewrite ?IH; (split; [tauto|]); intros [->|X]; auto;
      try (rewrite !String.eqb_refl in E; discriminate).
Qed.

(** which calls succeed *)
Theorem c70_effect_can_be_applied_iff :
  forall K (arm : K -> option Z) t arm_level p m e,
    is_ok (apply_synthetic_treatment_effect arm t arm_level p m e) <->
    arm_level = true /\
    forall s, In s (if crossover p then ["test_1"; "test_2"] else ["test"]) -> In (m, s) (t_cols t).
Proof.
  intros. unfold apply_synthetic_treatment_effect, is_ok. destruct arm_level; cbn [negb raise_if bind].
  2: split; [intros (x & X'); discriminate|intros [X _]; discriminate].
  destruct (crossover p); cbn [forallb]; rewrite ?andb_true_r.
  - destruct (has_column t (m, "test_1")) eqn:E1, (has_column t (m, "test_2")) eqn:E2; cbn [andb negb raise_if bind].
    { split; [|eexists; reflexivity]. intros _. split; auto. intros s [<-|[<-|[]]]; now apply has_column_iff. }
    all: split; [intros (x & X); discriminate|]; intros [_ H];
      assert (A1 := proj2 (has_column_iff t _) (H "test_1" (or_introl eq_refl)));
      assert (A2 := proj2 (has_column_iff t _) (H "test_2" (or_intror (or_introl eq_refl)))); congruence.
  - destruct (has_column t (m, "test")) eqn:E1; cbn [negb raise_if bind].
    { split; [|eexists; reflexivity]. intros _. split; auto. intros s [<-|[]]; now apply has_column_iff. }
    split; [intros (x & X); discriminate|]. intros [_ H].
    assert (A1 := proj2 (has_column_iff t _) (H "test" (or_introl eq_refl))). congruence.
Qed.

Section Effects.
Context {K : Type} (arm : K -> option Z).

Lemma arms_of_keys (t t' : table K) l : map fst (t_rows t') = map fst (t_rows t) -> in_arms arm t l -> in_arms arm t' l.
Proof. unfold in_arms. intros E <-. rewrite <- (map_map fst arm (t_rows t')), E, map_map. reflexivity. Qed.

(** the effect reaches exactly the treated values of the metric *)
Theorem c70_effect_in_a_crossover :
  forall t t' p m e l, NoDup (t_cols t) -> crossover p = true -> crossover_items arm t m l ->
    apply_synthetic_treatment_effect arm t true p m e = Ok t' ->
    t_cols t' = t_cols t /\ map fst (t_rows t') = map fst (t_rows t) /\
    crossover_items arm t' m (map (affected (fun x => nadd x e)) l) /\
    forall c v, holds t c v -> c <> (m, "test_1") -> c <> (m, "test_2") -> holds t' c v.
Proof.
  intros t t' p m e l ND C (IA & H1 & H2) H. unfold apply_synthetic_treatment_effect in H. rewrite C in H.
  cbn [negb raise_if bind] in H. apply bind_ok in H as (u & _ & H).
  set (t1 := update_column t (m, "test_1") (add_where arm (arm_is 1) e)) in *.
  assert (E' : t' = update_column t1 (m, "test_2") (add_where arm (fun a => negb (arm_is 1 a)) e)) by congruence. subst t'. clear H.
  destruct (update_column_holds t (m, "test_1") (add_where arm (arm_is 1) e) _ _ ND H1) as (C1 & K1 & H11).
  destruct (update_column_holds t (m, "test_1") (add_where arm (arm_is 1) e) _ _ ND H2) as (_ & _ & H12).
  fold t1 in C1, K1, H11, H12. cbn [fst snd] in H11, H12. rewrite String.eqb_refl in H11, H12. cbn [String.eqb Ascii.eqb Bool.eqb andb] in H11, H12.
  assert (ND1 : NoDup (t_cols t1)) by now rewrite C1.
  destruct (update_column_holds t1 (m, "test_2") (add_where arm (fun a => negb (arm_is 1 a)) e) _ _ ND1 H11) as (C2 & K2 & H21).
  destruct (update_column_holds t1 (m, "test_2") (add_where arm (fun a => negb (arm_is 1 a)) e) _ _ ND1 H12) as (_ & _ & H22).
  cbn [fst snd] in H21, H22. rewrite String.eqb_refl in H21, H22. cbn [String.eqb Ascii.eqb Bool.eqb andb] in H21, H22.
  split; [congruence|]. split; [congruence|].
  assert (IA' : map arm (map fst (t_rows t)) = map x_arm l) by (rewrite map_map; exact IA).
  assert (ZA : forall (treated : option Z -> bool) (g : cross num -> num),
    zip_with (add_where arm treated e) (map fst (t_rows t)) (map g l) =
    map (fun c => if treated (x_arm c) then nadd (g c) e else g c) l).
  { intros treated g.
    transitivity (zip_with (fun a (v : num) => if treated a then nadd v e else v) (map arm (map fst (t_rows t))) (map g l));
      [exact (eq_sym (zip_with_map_l _ arm (map fst (t_rows t)) _))|]. rewrite IA'. apply zip_with_map. }
  rewrite ZA in H21. rewrite K1, ZA in H22.
  split; [split; [|split]|].
  - rewrite map_map. unfold in_arms. rewrite <- (map_map fst arm), K2, K1, IA'. apply map_ext.
    intros c. unfold affected. now destruct (in_treatment_arm (x_arm c)).
  - rewrite map_map. refine (eq_ind _ (holds _ _) H21 _ _). apply map_ext. intros c. unfold affected. generalize (arm_is_1 (x_arm c)). intros ->.
    now destruct (in_treatment_arm (x_arm c)).
  - rewrite map_map. refine (eq_ind _ (holds _ _) H22 _ _). apply map_ext. intros c. unfold affected. generalize (arm_is_1 (x_arm c)). intros ->.
    now destruct (in_treatment_arm (x_arm c)).
  - intros c v Hc N1 N2.
    destruct (update_column_holds t (m, "test_1") (add_where arm (arm_is 1) e) _ _ ND Hc) as (_ & _ & X).
    replace ((fst (m, "test_1") =? fst c) && (snd (m, "test_1") =? snd c)) with false in X
      by (symmetry; apply not_true_iff_false; rewrite pair_eqb_eq; congruence).
    fold t1 in X.
    destruct (update_column_holds t1 (m, "test_2") (add_where arm (fun a => negb (arm_is 1 a)) e) _ _ ND1 X) as (_ & _ & Y).
    replace ((fst (m, "test_2") =? fst c) && (snd (m, "test_2") =? snd c)) with false in Y
      by (symmetry; apply not_true_iff_false; rewrite pair_eqb_eq; congruence).
    exact Y.
Qed.

Theorem c70_effect_in_a_regular_experiment :
  forall t t' p m e l, NoDup (t_cols t) -> crossover p = false -> regular_items arm t m l ->
    apply_synthetic_treatment_effect arm t true p m e = Ok t' ->
    t_cols t' = t_cols t /\ map fst (t_rows t') = map fst (t_rows t) /\
    regular_items arm t' m (map (affected_regular (fun x => nadd x e)) l) /\
    forall c v, holds t c v -> c <> (m, "test") -> holds t' c v.
Proof.
  intros t t' p m e l ND C (IA & H1) H. unfold apply_synthetic_treatment_effect in H. rewrite C in H.
  cbn [negb raise_if bind] in H. apply bind_ok in H as (u & _ & H).
  assert (E' : t' = update_column t (m, "test") (add_where arm (arm_is 1) e)) by congruence. subst t'. clear H.
  destruct (update_column_holds t (m, "test") (add_where arm (arm_is 1) e) _ _ ND H1) as (C1 & K1 & H11).
  cbn [fst snd] in H11. rewrite String.eqb_refl in H11. cbn [String.eqb Ascii.eqb Bool.eqb andb] in H11.
  split; auto. split; auto.
  assert (IA' : map arm (map fst (t_rows t)) = map fst l) by (rewrite map_map; exact IA).
  assert (ZA : zip_with (add_where arm (arm_is 1) e) (map fst (t_rows t)) (map snd l) =
    map (fun c => if arm_is 1 (fst c) then nadd (snd c) e else snd c) l).
  { transitivity (zip_with (fun a (v : num) => if arm_is 1 a then nadd v e else v) (map arm (map fst (t_rows t))) (map snd l));
      [exact (eq_sym (zip_with_map_l _ arm (map fst (t_rows t)) _))|]. rewrite IA'. apply zip_with_map. }
  rewrite ZA in H11.
  split; [split|].
  - rewrite map_map. unfold in_arms. rewrite <- (map_map fst arm), K1, IA'. apply map_ext.
    intros c. unfold affected_regular. now destruct (in_treatment_arm (fst c)).
  - rewrite map_map. refine (eq_ind _ (holds _ _) H11 _ _). apply map_ext. intros c. unfold affected_regular. generalize (arm_is_1 (fst c)). intros ->.
    now destruct (in_treatment_arm (fst c)).
  - intros c v Hc N1.
    destruct (update_column_holds t (m, "test") (add_where arm (arm_is 1) e) _ _ ND Hc) as (_ & _ & X).
    replace ((fst (m, "test") =? fst c) && (snd (m, "test") =? snd c)) with false in X
      by (symmetry; apply not_true_iff_false; rewrite pair_eqb_eq; congruence).
    exact X.
Qed.

(** *** the analysis of a table *)
Definition chosen (p : params) (override : option f64) : f64 := match override with Some q => q | None => post p end.

Lemma analysis_crossover T argsort t p m l override : NoDup (t_cols t) -> crossover p = true -> crossover_items arm t m l ->
  analyze_single_metric T argsort arm t true p m None override =
  let q := chosen p override in
  let y := prepare_crossover (map x_one l) (map x_two l) (map x_arm l) (is_zero q) in
  yuens_t_test_paired T argsort (fst y) (snd y) q None None "two-sided" default_alpha.
Proof.
  intros ND C (IA & H1 & H2). unfold analyze_single_metric.
  destruct (metric_subset_spec arm t m _ _ ND H1) as (s & -> & EA & G & _). cbn [bind].
  unfold complete, required_periods. rewrite C, EA. cbn [forallb]. rewrite (G _ _ H1), (G _ _ H2). cbn [andb negb raise_if bind].
  unfold analyze_crossover, period_values, arm_values. rewrite (G _ _ H1), (G _ _ H2), EA, IA.
  unfold chosen. destruct override; reflexivity.
Qed.

Lemma select_arm {V} a (l : list (option Z * V)) : select (map (arm_is a) (map fst l)) (map snd l) = values_of_arm a l.
Proof.
  unfold select, values_of_arm. rewrite map_map. induction l as [|[o v] l IH]; simpl; auto.
  unfold arm_is at 1. destruct o as [z|]; simpl; [destruct (Z.eqb z a)|]; simpl; rewrite ?IH; auto.
Qed.

Lemma analysis_regular T argsort t p m l override : NoDup (t_cols t) -> crossover p = false -> pretest p = 0%Z ->
  ~ In (m, "pretest") (t_cols t) -> regular_items arm t m l ->
  analyze_single_metric T argsort arm t true p m None override =
  yuens_t_test_ind T argsort (values_of_arm 1 l) (values_of_arm 0 l) (chosen p override) None None false "two-sided" default_alpha.
Proof.
  intros ND C PT NP (IA & H1). unfold analyze_single_metric.
  destruct (metric_subset_spec arm t m _ _ ND H1) as (s & -> & EA & G & N). cbn [bind].
  unfold complete, required_periods. rewrite C, PT, EA. cbn [Z.ltb Z.compare forallb]. rewrite (G _ _ H1). cbn [andb negb raise_if bind].
  unfold analyze_regular, prepare_regular, period_values, arm_values. rewrite (G _ _ H1), EA, (N _ NP). cbn [bind fst snd].
  rewrite IA, !select_arm. unfold chosen. destruct override; reflexivity.
Qed.
End Effects.

(** Concrete cases. *)
Definition three_items : list (cross R) := [mkX (Some 1%Z) 3 2; mkX (Some 0%Z) 5 1; mkX (Some 0%Z) 4 6].
Definition three_table : table (string * Z) :=
  mkT [("clicks", "test_1"); ("clicks", "test_2"); ("cost", "test_1")]
      [(("a", 1%Z), [Fin 3; Fin 2; Fin 7]); (("b", 0%Z), [Fin 5; Fin 1; NaN]); (("c", 0%Z), [Fin 4; Fin 6; Fin 0])].
Definition arm_of (k : string * Z) : option Z := Some (snd k).

Example c62_example :
  prepare_crossover (map x_one (map finite three_items)) (map x_two (map finite three_items)) (map x_arm (map finite three_items)) false
  = (data [3; 1; 6], data [2; 5; 4]) /\
  exists tr co,
    prepare_crossover (map x_one (map finite three_items)) (map x_two (map finite three_items)) (map x_arm (map finite three_items)) true
    = (data tr, data co) /\ minus tr co = [0; - 3; 3].
Proof.
  split; [now rewrite c62_pairs_raw_values|].
  destruct (c62_demeaned three_items ltac:(discriminate)) as (tr & co & H & _ & _ & _ & D). exists tr, co. split; auto.
  rewrite D. unfold three_items, signed, ones, twos, avg, Trimmed_Spec.total. simpl. repeat f_equal; field.
Qed.

Lemma three_table_items : NoDup (t_cols three_table) /\ crossover_items arm_of three_table "clicks" (map finite three_items).
Proof.
  split; [repeat constructor; simpl; intuition discriminate|]. split; [reflexivity|]. split.
  - exists 0%nat. split; [reflexivity|]. repeat constructor.
  - exists 1%nat. split; [reflexivity|]. repeat constructor.
Qed.

Example c63_example_effect : exists t', crossover ex_params = true /\
  apply_synthetic_treatment_effect arm_of three_table true ex_params "clicks" (Fin 10) = Ok t' /\
  crossover_items arm_of t' "clicks" (map finite [mkX (Some 1%Z) (3 + 10) 2; mkX (Some 0%Z) 5 (1 + 10); mkX (Some 0%Z) 4 (6 + 10)]) /\
  holds t' ("cost", "test_1") [Fin 7; NaN; Fin 0].
Proof.
  destruct three_table_items as [ND IT]. eexists. split; [reflexivity|]. split; [reflexivity|].
  edestruct (c70_effect_in_a_crossover arm_of three_table _ ex_params "clicks" (Fin 10) _ ND eq_refl IT eq_refl) as (_ & _ & A & B).
  split; [exact A|]. apply B; [|discriminate|discriminate]. exists 2%nat. split; [reflexivity|]. repeat constructor.
Qed.

Definition plain_design : params :=
  mkParams 1000 2 "clicks" 0 false f0 f0 f0 None (flit 5 100) (flit 8 10) None.
Definition plain_table : table (string * Z) :=
  mkT [("clicks", "test")] [(("a", 1%Z), [Fin 7]); (("b", 0%Z), [Fin 1]); (("c", 0%Z), [Fin 9]); (("d", 1%Z), [Fin 13])].
Example c64_example_effect :
  NoDup (t_cols plain_table) /\ regular_items arm_of plain_table "clicks" [(Some 1%Z, Fin 7); (Some 0%Z, Fin 1); (Some 0%Z, Fin 9); (Some 1%Z, Fin 13)] /\
  exists t', apply_synthetic_treatment_effect arm_of plain_table true plain_design "clicks" (Fin 10) = Ok t' /\
    map snd (t_rows t') = [[Fin (7 + 10)]; [Fin 1]; [Fin 9]; [Fin (13 + 10)]].
Proof.
  split; [repeat constructor; intros []|]. split; [|eexists; split; reflexivity].
  split; [reflexivity|]. exists 0%nat. split; [reflexivity|]. repeat constructor.
Qed.

Print Assumptions c62_pairs_raw_values.
Print Assumptions c62_demeaned.
Print Assumptions c62_common_period_effects_cancel.
Print Assumptions c62_common_period_effects_cancel_without_demeaning_refuted.
Print Assumptions c70_effect_can_be_applied_iff.
Print Assumptions c70_effect_in_a_crossover.
Print Assumptions c70_effect_in_a_regular_experiment.
