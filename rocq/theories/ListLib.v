(** Generic list machinery used by the data frame models: first-occurrence deduplication
    (pandas drop_duplicates), sorted distinct keys (pandas groupby), grouping. *)
From Coq Require Import ZArith List Bool String Ascii Lia Permutation Sorting.Sorted Relations.
Import ListNotations.

Section Dedup.
Context {A : Type} (eqb : A -> A -> bool).
Hypothesis eqb_spec : forall x y, eqb x y = true <-> x = y.

(** Series.drop_duplicates / unique: first occurrences in order *)
Fixpoint dedup (l : list A) : list A :=
  match l with
  | [] => []
  | x :: r => x :: filter (fun y => negb (eqb x y)) (dedup r)
  end.

Lemma eqb_refl' x : eqb x x = true.
Proof. now apply eqb_spec. Qed.

Lemma dedup_In l x : In x (dedup l) <-> In x l.
Proof.
  induction l as [|a l IH]; simpl; [tauto|].
  rewrite filter_In, IH, negb_true_iff.
  destruct (eqb a x) eqn:E.
  - apply eqb_spec in E. subst. intuition congruence.
  - intuition.
Qed.

Lemma NoDup_filter' (f : A -> bool) l : NoDup l -> NoDup (filter f l).
Proof. intros H. now apply NoDup_filter. Qed.

Lemma dedup_NoDup l : NoDup (dedup l).
Proof.
  induction l as [|a l IH]; simpl; constructor.
  - rewrite filter_In, negb_true_iff. intros [_ H]. rewrite eqb_refl' in H. discriminate.
  - now apply NoDup_filter.
Qed.

Lemma filter_all (f : A -> bool) l : (forall x, In x l -> f x = true) -> filter f l = l.
Proof.
  induction l as [|a l IH]; simpl; intros H; auto.
  rewrite (H a) by now left. f_equal. apply IH. intros; apply H; now right.
Qed.

Lemma filter_none (f : A -> bool) l : (forall x, In x l -> f x = false) -> filter f l = [].
Proof.
  induction l as [|a l IH]; simpl; intros H; auto.
  rewrite (H a) by now left. apply IH. intros; apply H; now right.
Qed.

Lemma dedup_id l : NoDup l -> dedup l = l.
Proof.
  induction 1 as [|a l Hn _ IH]; simpl; auto. rewrite IH. f_equal. apply filter_all.
  intros x Hx. apply negb_true_iff. destruct (eqb a x) eqn:E; auto.
  apply eqb_spec in E. subst. contradiction.
Qed.

Lemma filter_comm (f g : A -> bool) l : filter f (filter g l) = filter g (filter f l).
Proof.
  induction l as [|a l IH]; simpl; auto.
  destruct (g a) eqn:G, (f a) eqn:F; simpl; rewrite ?G, ?F, ?IH; auto.
Qed.

Lemma dedup_filter_comm (f : A -> bool) l : dedup (filter f l) = filter f (dedup l).
Proof.
  induction l as [|a l IH]; simpl; auto. destruct (f a) eqn:E; simpl.
  - f_equal. rewrite IH. apply filter_comm.
  - rewrite IH, filter_comm. symmetry. apply filter_all.
    intros x Hx. apply filter_In in Hx as [_ Hx]. apply negb_true_iff.
    destruct (eqb a x) eqn:Eax; auto. apply eqb_spec in Eax. congruence.
Qed.

Lemma dedup_app l1 l2 :
  dedup (l1 ++ l2) = dedup l1 ++ filter (fun y => negb (existsb (eqb y) l1)) (dedup l2).
Proof.
  induction l1 as [|a l1 IH]; simpl.
  - symmetry. apply filter_all. auto.
  - f_equal. rewrite IH, filter_app. f_equal.
    clear IH. induction (dedup l2) as [|b m IHm]; simpl; auto.
    assert (Eba : eqb b a = eqb a b).
    { destruct (eqb b a) eqn:X, (eqb a b) eqn:Y; auto.
      - apply eqb_spec in X. subst. now rewrite eqb_refl' in Y.
      - apply eqb_spec in Y. subst. now rewrite eqb_refl' in X. }
    rewrite Eba. destruct (existsb (eqb b) l1), (eqb a b) eqn:Eab; simpl; rewrite ?Eab; simpl;
      rewrite ?IHm; auto.
Qed.

Lemma existsb_false_iff {B} (f : B -> bool) (l : list B) : existsb f l = false <-> forall x, In x l -> f x = false.
Proof.
  induction l as [|a l IH]; simpl; [tauto|]. rewrite orb_false_iff, IH. split.
  - intros [H1 H2] x [<-|Hx]; auto.
  - intros H. split; auto.
Qed.
Lemma existsb_eqb_In x l : existsb (eqb x) l = true <-> In x l.
Proof.
  rewrite existsb_exists. split.
  - intros (y & Hy & E). apply eqb_spec in E. now subst.
  - intros H. exists x. split; auto. apply eqb_refl'.
Qed.

Lemma dedup_app_incl l1 l2 : incl l2 l1 -> dedup (l1 ++ l2) = dedup l1.
Proof.
  intros H. rewrite dedup_app, filter_none, app_nil_r; auto.
  intros x Hx. apply (proj1 (dedup_In _ _)) in Hx. apply negb_false_iff.
  apply existsb_eqb_In. auto.
Qed.

Lemma dedup_length l : List.length (dedup l) <= List.length l.
Proof.
  induction l; simpl; auto. apply le_n_S. etransitivity; [|apply IHl].
  clear. induction (dedup l); simpl; auto. destruct (negb _); simpl; lia.
Qed.

(** number of distinct values is determined by the set of values *)
Lemma dedup_count l s : NoDup s -> (forall x, In x s <-> In x l) -> List.length (dedup l) = List.length s.
Proof.
  intros Hs H. apply Permutation_length. apply NoDup_Permutation; auto using dedup_NoDup.
  intros x. now rewrite dedup_In, H.
Qed.

Lemma dedup_length_eq_NoDup l : List.length (dedup l) = List.length l <-> NoDup l.
Proof.
  split; [|intros; now rewrite dedup_id].
  induction l as [|a l IH]; simpl; [constructor|]. intros H. injection H as H.
  assert (F : forall (f : A -> bool) m, List.length (filter f m) <= List.length m).
  { intros f m. induction m; simpl; auto. destruct (f a0); simpl; lia. }
  pose proof (F (fun y => negb (eqb a y)) (dedup l)) as F1. pose proof (dedup_length l) as F2.
  assert (E : List.length (dedup l) = List.length l) by lia.
  constructor; auto. intros Hin. apply (proj2 (dedup_In _ _)) in Hin.
  assert (List.length (filter (fun y => negb (eqb a y)) (dedup l)) < List.length (dedup l)); [|lia].
  clear - Hin eqb_spec F. induction (dedup l) as [|b m IHm]; [destruct Hin|]. simpl.
  destruct (negb (eqb a b)) eqn:E; simpl.
  - destruct Hin as [<-|Hin]; [rewrite eqb_refl' in E; discriminate|]. apply IHm in Hin. lia.
  - specialize (F (fun y => negb (eqb a y)) m). lia.
Qed.
End Dedup.

(* ------------------------------------------------------------------ *)
(** insertion sort for a total order given by a boolean [leb] *)
Section Sort.
Context {A : Type} (leb : A -> A -> bool).

Fixpoint insert (x : A) (l : list A) : list A :=
  match l with
  | [] => [x]
  | y :: r => if leb x y then x :: y :: r else y :: insert x r
  end.
Fixpoint isort (l : list A) : list A :=
  match l with [] => [] | x :: r => insert x (isort r) end.

Lemma insert_perm x l : Permutation (insert x l) (x :: l).
Proof.
  induction l as [|y l IH]; simpl; auto. destruct (leb x y); auto.
  rewrite IH. apply perm_swap.
Qed.
Lemma isort_perm l : Permutation (isort l) l.
Proof.
  induction l as [|x l IH]; simpl; auto. rewrite insert_perm. now constructor.
Qed.
Lemma isort_In l x : In x (isort l) <-> In x l.
Proof. split; apply Permutation_in; [|symmetry]; apply isort_perm. Qed.
Lemma isort_length l : List.length (isort l) = List.length l.
Proof. apply Permutation_length, isort_perm. Qed.
Lemma isort_NoDup l : NoDup l -> NoDup (isort l).
Proof. intros H. eapply Permutation_NoDup; [|exact H]. symmetry. apply isort_perm. Qed.

Hypothesis leb_trans : forall x y z, leb x y = true -> leb y z = true -> leb x z = true.
Hypothesis leb_total : forall x y, leb x y = true \/ leb y x = true.

Definition le_of x y := leb x y = true.

Lemma insert_sorted x l : StronglySorted le_of l -> StronglySorted le_of (insert x l).
Proof.
  induction 1 as [|y l Hs IH Hf]; simpl.
  - repeat constructor.
  - destruct (leb x y) eqn:E.
    + constructor; [constructor; auto|]. constructor; auto.
      eapply Forall_impl; [|exact Hf]. intros a Ha. unfold le_of in *. eauto.
    + constructor; auto. assert (Hyx : leb y x = true) by (destruct (leb_total x y); congruence).
      rewrite Forall_forall in *. intros a Ha.
      apply (Permutation_in _ (insert_perm x l)) in Ha. destruct Ha as [<-|Ha]; auto.
Qed.
Lemma isort_sorted l : StronglySorted le_of (isort l).
Proof. induction l; simpl; [constructor|]. now apply insert_sorted. Qed.
End Sort.

(** sorted distinct list is unique *)
Lemma StronglySorted_unique {A} (R : A -> A -> Prop) :
  (forall x, ~ R x x) -> (forall x y, R x y -> R y x -> False) ->
  forall l1 l2, StronglySorted R l1 -> StronglySorted R l2 ->
  (forall x, In x l1 <-> In x l2) -> l1 = l2.
Proof.
  intros Irr Asym. induction l1 as [|a l1 IH]; intros l2 H1 H2 H.
  - destruct l2 as [|b l2]; auto. exfalso. apply (H b). now left.
  - destruct l2 as [|b l2]; [exfalso; apply (H a); now left|].
    inversion H1 as [|? ? S1 F1]; subst. inversion H2 as [|? ? S2 F2]; subst.
    rewrite Forall_forall in F1, F2.
    assert (a = b).
    { destruct (proj1 (H a)) as [|Ha]; [now left|auto|].
      destruct (proj2 (H b)) as [|Hb]; [now left|auto|].
      exfalso. eapply Asym; [apply F1|apply F2]; eauto. }
    subst. f_equal. apply IH; auto. intros x. split; intros Hx.
    + destruct (proj1 (H x)) as [E|]; [now right| |auto]. subst. exfalso. eapply Irr; eauto.
    + destruct (proj2 (H x)) as [E|]; [now right| |auto]. subst. exfalso. eapply Irr; eauto.
Qed.

Lemma StronglySorted_filter {A} (R : A -> A -> Prop) (f : A -> bool) l :
  StronglySorted R l -> StronglySorted R (filter f l).
Proof.
  induction 1 as [|a l Hs IH Hf]; simpl; [constructor|].
  destruct (f a); auto. constructor; auto. rewrite Forall_forall in *.
  intros x Hx. apply filter_In in Hx as [Hx _]. auto.
Qed.

Lemma StronglySorted_strict {A} (leb : A -> A -> bool) l :
  NoDup l -> StronglySorted (le_of leb) l ->
  StronglySorted (fun x y => le_of leb x y /\ x <> y) l.
Proof.
  intros Hn Hs. induction Hs as [|a l Hs IH Hf]; constructor.
  - apply IH. now inversion Hn.
  - inversion Hn; subst. rewrite Forall_forall in *. intros x Hx. split; auto. congruence.
Qed.

(** StronglySorted lists and index order *)
Lemma StronglySorted_nth {A} (R : A -> A -> Prop) l d :
  StronglySorted R l -> forall i j, i < j -> j < List.length l -> R (nth i l d) (nth j l d).
Proof.
  induction 1 as [|a l Hs IH Hf]; intros i j Hij Hj; simpl in *; [lia|].
  destruct j; [lia|]. destruct i; simpl.
  - rewrite Forall_forall in Hf. apply Hf. apply nth_In. lia.
  - apply IH; lia.
Qed.

(** order on the integers *)
Lemma Zleb_trans' x y z : (x <=? y)%Z = true -> (y <=? z)%Z = true -> (x <=? z)%Z = true.
Proof. rewrite !Z.leb_le. lia. Qed.
Lemma Zleb_total' x y : (x <=? y)%Z = true \/ (y <=? x)%Z = true.
Proof. rewrite !Z.leb_le. lia. Qed.

(** distinct integers in increasing order *)
Definition zsort_uniq (l : list Z) : list Z := isort Z.leb (dedup Z.eqb l).

Lemma zsort_uniq_In l x : In x (zsort_uniq l) <-> In x l.
Proof. unfold zsort_uniq. rewrite isort_In. apply dedup_In. apply Z.eqb_eq. Qed.
Lemma zsort_uniq_NoDup l : NoDup (zsort_uniq l).
Proof. apply isort_NoDup, dedup_NoDup, Z.eqb_eq. Qed.
Lemma zsort_uniq_sorted l : StronglySorted Z.lt (zsort_uniq l).
Proof.
  assert (H : StronglySorted (fun x y => le_of Z.leb x y /\ x <> y) (zsort_uniq l)).
  { apply StronglySorted_strict; [apply zsort_uniq_NoDup|].
    apply isort_sorted; [apply Zleb_trans'|apply Zleb_total']. }
  induction H as [|a m _ IH Hf]; constructor; auto.
  eapply Forall_impl; [|exact Hf]. unfold le_of. intros x [H1 H2]. apply Z.leb_le in H1. lia.
Qed.
Lemma zsort_uniq_unique l s :
  StronglySorted Z.lt s -> (forall x, In x s <-> In x l) -> zsort_uniq l = s.
Proof.
  intros Hs H. apply (StronglySorted_unique Z.lt); auto using zsort_uniq_sorted.
  - intros; lia.
  - intros; lia.
  - intros x. rewrite zsort_uniq_In. symmetry. apply H.
Qed.

(* ------------------------------------------------------------------ *)
(** total order on strings (code units, as Python's str comparison for UTF-8 text) *)
Definition sleb (a b : string) : bool := String.leb a b.

Lemma ascii_compare_N a b : Ascii.compare a b = N.compare (N_of_ascii a) (N_of_ascii b).
Proof. reflexivity. Qed.

Lemma scompare_trans_lt a : forall b c,
  String.compare a b = Lt -> String.compare b c = Lt -> String.compare a c = Lt.
Proof.
  induction a as [|x a IH]; intros [|y b] [|z c]; simpl; try congruence; auto.
  rewrite !ascii_compare_N.
  destruct (N.compare_spec (N_of_ascii x) (N_of_ascii y)) as [E1|E1|E1];
  destruct (N.compare_spec (N_of_ascii y) (N_of_ascii z)) as [E2|E2|E2]; try congruence;
  intros H1 H2; destruct (N.compare_spec (N_of_ascii x) (N_of_ascii z)); try lia; eauto.
Qed.

Lemma sleb_total a b : sleb a b = true \/ sleb b a = true.
Proof. apply String.leb_total. Qed.
Lemma sleb_antisym a b : sleb a b = true -> sleb b a = true -> a = b.
Proof. apply String.leb_antisym. Qed.
Lemma sleb_trans a b c : sleb a b = true -> sleb b c = true -> sleb a c = true.
Proof.
  unfold sleb, String.leb. destruct (String.compare a b) eqn:E1; try congruence;
  destruct (String.compare b c) eqn:E2; try congruence; intros _ _.
  - apply String.compare_eq_iff in E1. subst. now rewrite E2.
  - apply String.compare_eq_iff in E1. subst. now rewrite E2.
  - apply String.compare_eq_iff in E2. subst. now rewrite E1.
  - now rewrite (scompare_trans_lt _ _ _ E1 E2).
Qed.

(** lexicographic product order *)
Definition lexb {A B} (eqa : A -> A -> bool) (la : A -> A -> bool) (lb : B -> B -> bool)
    (x y : A * B) : bool :=
  if eqa (fst x) (fst y) then lb (snd x) (snd y) else la (fst x) (fst y).

Record ord {A} (eqb leb : A -> A -> bool) : Prop := {
  ord_eq : forall x y, eqb x y = true <-> x = y;
  ord_trans : forall x y z, leb x y = true -> leb y z = true -> leb x z = true;
  ord_total : forall x y, leb x y = true \/ leb y x = true;
  ord_antisym : forall x y, leb x y = true -> leb y x = true -> x = y
}.

Lemma ord_Z : ord Z.eqb Z.leb.
Proof.
  constructor; [apply Z.eqb_eq|apply Zleb_trans'|apply Zleb_total'|].
  intros x y. rewrite !Z.leb_le. lia.
Qed.
Lemma ord_string : ord String.eqb sleb.
Proof.
  constructor; [apply String.eqb_eq|apply sleb_trans|apply sleb_total|apply sleb_antisym].
Qed.

Definition paireqb {A B} (ea : A -> A -> bool) (eb : B -> B -> bool) (x y : A * B) : bool :=
  andb (ea (fst x) (fst y)) (eb (snd x) (snd y)).

Lemma ord_pair {A B} (ea la : A -> A -> bool) (eb lb : B -> B -> bool) :
  ord ea la -> ord eb lb -> ord (paireqb ea eb) (lexb ea la lb).
Proof.
  intros [E1 T1 O1 S1] [E2 T2 O2 S2]. constructor.
  - intros [a b] [c d]. unfold paireqb. simpl. rewrite andb_true_iff, E1, E2. split.
    + intros [-> ->]; auto.
    + intros H; inversion H; auto.
  - intros [a b] [c d] [e f]. unfold lexb. simpl.
    destruct (ea a c) eqn:Eac; destruct (ea c e) eqn:Ece.
    + apply E1 in Eac, Ece. subst. rewrite (proj2 (E1 e e)); auto. apply T2.
    + apply E1 in Eac. subst. rewrite Ece. auto.
    + apply E1 in Ece. subst. rewrite Eac. auto.
    + intros H1 H2. destruct (ea a e) eqn:Eae.
      * apply E1 in Eae. subst. assert (c = e) by auto. subst.
        rewrite (proj2 (E1 e e)) in Ece; auto. discriminate.
      * eauto.
  - intros [a b] [c d]. unfold lexb. simpl. destruct (ea a c) eqn:E.
    + apply E1 in E. subst. rewrite (proj2 (E1 c c)); auto.
    + assert (E' : ea c a = false).
      { destruct (ea c a) eqn:X; auto. apply E1 in X. subst. rewrite (proj2 (E1 a a)) in E; auto. }
      rewrite E'. auto.
  - intros [a b] [c d]. unfold lexb. simpl. destruct (ea a c) eqn:E.
    + apply E1 in E. subst. rewrite (proj2 (E1 c c)); auto. intros. f_equal. auto.
    + assert (E' : ea c a = false).
      { destruct (ea c a) eqn:X; auto. apply E1 in X. subst. rewrite (proj2 (E1 a a)) in E; auto. }
      rewrite E'. intros H1 H2. rewrite (S1 _ _ H1 H2) in E. rewrite (proj2 (E1 c c)) in E; auto. discriminate.
Qed.

(** lexicographic order on lists of strings *)
Fixpoint lleb (a b : list string) : bool :=
  match a, b with
  | [], _ => true
  | _ :: _, [] => false
  | x :: a', y :: b' => if String.eqb x y then lleb a' b' else sleb x y
  end.
Fixpoint leqb (a b : list string) : bool :=
  match a, b with
  | [], [] => true
  | x :: a', y :: b' => andb (String.eqb x y) (leqb a' b')
  | _, _ => false
  end.
Lemma leqb_eq a : forall b, leqb a b = true <-> a = b.
Proof.
  induction a as [|x a IH]; intros [|y b]; simpl; try (split; congruence).
  rewrite andb_true_iff, String.eqb_eq, IH. split; [intros [-> ->]; auto|intros H; inversion H; auto].
Qed.
Lemma ord_strings : ord leqb lleb.
Proof.
  constructor.
  - apply leqb_eq.
  - induction x as [|a x IH]; intros [|b y] [|c z]; simpl; try congruence; auto.
    destruct (String.eqb_spec a b); destruct (String.eqb_spec b c); subst.
    + rewrite String.eqb_refl. apply IH.
    + destruct (String.eqb_spec b c); congruence.
    + destruct (String.eqb_spec a c); congruence.
    + intros H1 H2. destruct (String.eqb_spec a c).
      * subst. assert (b = c) by (apply sleb_antisym; auto). congruence.
      * eapply sleb_trans; eauto.
  - induction x as [|a x IH]; intros [|b y]; simpl; auto.
    destruct (String.eqb_spec a b).
    + subst. rewrite String.eqb_refl. apply IH.
    + destruct (String.eqb_spec b a); [congruence|]. apply sleb_total.
  - induction x as [|a x IH]; intros [|b y]; simpl; try congruence; auto.
    destruct (String.eqb_spec a b).
    + subst. rewrite String.eqb_refl. intros. f_equal. auto.
    + destruct (String.eqb_spec b a); [congruence|]. intros H1 H2. exfalso. apply n. now apply sleb_antisym.
Qed.

(* ------------------------------------------------------------------ *)
(** DataFrame.groupby(keys): distinct keys in increasing order, each with its rows in their
    original order *)
Section GroupBy.
Context {K R : Type} (eqb leb : K -> K -> bool) (key : R -> K).

Definition group_keys (rows : list R) : list K := isort leb (dedup eqb (map key rows)).
Definition group_of (rows : list R) (k : K) : list R := filter (fun r => eqb (key r) k) rows.
Definition groupby (rows : list R) : list (K * list R) :=
  map (fun k => (k, group_of rows k)) (group_keys rows).

Hypothesis HO : ord eqb leb.

Lemma group_keys_In rows k : In k (group_keys rows) <-> exists r, In r rows /\ key r = k.
Proof.
  unfold group_keys. rewrite isort_In, dedup_In by apply HO. rewrite in_map_iff.
  split; intros (r & H1 & H2); eauto.
Qed.
Lemma group_keys_NoDup rows : NoDup (group_keys rows).
Proof. apply isort_NoDup, dedup_NoDup, HO. Qed.
Lemma group_keys_sorted rows :
  StronglySorted (fun a b => leb a b = true /\ a <> b) (group_keys rows).
Proof.
  apply StronglySorted_strict; [apply group_keys_NoDup|]. apply isort_sorted; apply HO.
Qed.
Lemma group_of_In rows k r : In r (group_of rows k) <-> In r rows /\ key r = k.
Proof. unfold group_of. rewrite filter_In. now rewrite (ord_eq _ _ HO). Qed.
Lemma group_of_nonempty rows k : In k (group_keys rows) -> group_of rows k <> [].
Proof.
  intros H. apply group_keys_In in H as (r & Hr & Hk). intros E.
  assert (In r (group_of rows k)) by (apply group_of_In; auto). rewrite E in H. destruct H.
Qed.

(** grouping partitions the rows *)
Lemma groupby_partition_keys ks rows :
  NoDup ks -> (forall r, In r rows -> In (key r) ks) ->
  Permutation (flat_map (group_of rows) ks) rows.
Proof.
  revert rows. induction ks as [|k ks IH]; intros rows Hn Hin; simpl.
  - destruct rows as [|r rows]; auto. destruct (Hin r). now left.
  - inversion Hn as [|? ? Hk Hn']; subst.
    set (rest := filter (fun r => negb (eqb (key r) k)) rows).
    assert (E : flat_map (group_of rows) ks = flat_map (group_of rest) ks).
    { assert (forall l, ~ In k l -> flat_map (group_of rows) l = flat_map (group_of rest) l).
      { induction l as [|j l IHl]; simpl; auto. intros Hj. f_equal; [|apply IHl; tauto].
        unfold group_of, rest. clear - HO Hj. induction rows as [|r rows IHr]; simpl; auto.
        destruct (eqb (key r) j) eqn:E1; destruct (eqb (key r) k) eqn:E2; simpl; rewrite ?E1, IHr; auto.
        apply (ord_eq _ _ HO) in E1, E2. subst. exfalso. apply Hj. left. congruence. }
      auto. }
    rewrite E, IH; auto.
    + unfold rest, group_of. clear. induction rows as [|r rows IHr]; simpl; auto.
      destruct (eqb (key r) k); simpl.
      * now constructor.
      * rewrite <- Permutation_middle. now constructor.
    + intros r Hr. unfold rest in Hr. apply filter_In in Hr as [Hr Hb].
      destruct (Hin r Hr) as [X|]; auto. exfalso. apply negb_true_iff in Hb.
      subst. rewrite (proj2 (ord_eq _ _ HO (key r) (key r))) in Hb; auto. discriminate.
Qed.
Lemma groupby_partition rows : Permutation (flat_map snd (groupby rows)) rows.
Proof.
  unfold groupby. rewrite flat_map_concat_map, map_map. simpl. rewrite <- flat_map_concat_map.
  apply groupby_partition_keys; [apply group_keys_NoDup|].
  intros r Hr. apply group_keys_In. eauto.
Qed.
End GroupBy.

Lemma filter_flat_map_key {K R} (eqb : K -> K -> bool) (key : R -> K) (g : K -> list R) ks k :
  (forall x y, eqb x y = true <-> x = y) ->
  (forall k' r, In r (g k') -> key r = k') -> NoDup ks ->
  filter (fun r => eqb (key r) k) (flat_map g ks) = if existsb (eqb k) ks then g k else [].
Proof.
  intros HE HG. induction 1 as [|a ks Hn _ IH]; simpl; auto.
  rewrite filter_app, IH. destruct (eqb k a) eqn:E; simpl.
  - apply HE in E. subst a.
    replace (existsb (eqb k) ks) with false.
    2:{ symmetry. destruct (existsb (eqb k) ks) eqn:X; auto. exfalso. apply Hn.
        apply (existsb_eqb_In eqb HE) in X. auto. }
    rewrite app_nil_r. apply filter_all. intros x Hx. apply HE. now apply HG.
  - rewrite filter_none; auto. intros x Hx. destruct (eqb (key x) k) eqn:X; auto.
    apply HE in X. apply HG in Hx. subst. rewrite (proj2 (HE (key x) (key x))) in E; auto.
Qed.

Lemma NoDup_app' {A} (l m : list A) :
  NoDup l -> NoDup m -> (forall x, In x l -> ~ In x m) -> NoDup (l ++ m).
Proof.
  induction 1 as [|a l Hn _ IH]; intros Hm Hd; simpl; auto. constructor.
  - rewrite in_app_iff. intros [H|H]; auto. apply (Hd a); simpl; auto.
  - apply IH; auto. intros x Hx. apply Hd. now right.
Qed.

Lemma NoDup_map_inj {A B} (f : A -> B) l :
  (forall x y, In x l -> In y l -> f x = f y -> x = y) -> NoDup l -> NoDup (map f l).
Proof.
  intros Hf. induction 1 as [|a l Hn _ IH]; simpl; constructor.
  - rewrite in_map_iff. intros (b & E & Hb). apply Hf in E; simpl; auto. subst. contradiction.
  - apply IH. intros. apply Hf; simpl; auto.
Qed.

Lemma NoDup_list_prod {A B} (l : list A) (m : list B) : NoDup l -> NoDup m -> NoDup (list_prod l m).
Proof.
  intros Hl Hm. induction Hl as [|a l Hn _ IH]; simpl; [constructor|].
  apply NoDup_app'; auto.
  - apply NoDup_map_inj; auto. intros x y _ _ E. now inversion E.
  - intros [x y] Hx Hy. apply in_map_iff in Hx as (b & E & Hb). inversion E; subst.
    apply in_prod_iff in Hy as [Hy _]. contradiction.
Qed.

Lemma NoDup_map_NoDup {A B} (f : A -> B) l : NoDup (map f l) -> NoDup l.
Proof.
  induction l as [|a l IH]; simpl; [constructor|]. inversion 1; subst. constructor; auto.
  intros Hin. apply H2. now apply in_map.
Qed.

Lemma flat_map_singleton_length {A B} (g : A -> list B) l :
  (forall a, In a l -> List.length (g a) = 1) -> List.length (flat_map g l) = List.length l.
Proof.
  induction l as [|a l IH]; simpl; auto. intros H. rewrite app_length, (H a), IH; auto.
Qed.
