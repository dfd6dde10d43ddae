(** Ranks: counting the elements that come before an element in a strict order. *)
From Coq Require Import List Bool Lia Arith Permutation Sorting.Sorted.
Import ListNotations.

Section Rank.
Context {A : Type} (before : A -> A -> bool).

(** number of elements of [l] before [x] *)
Definition rank (l : list A) (x : A) : nat := length (filter (fun y => before y x) l).

Record strict_on (l : list A) : Prop := {
  so_irrefl : forall x, In x l -> before x x = false;
  so_trans : forall x y z, In x l -> In y l -> In z l -> before x y = true -> before y z = true -> before x z = true;
  so_total : forall x y, In x l -> In y l -> x <> y -> before x y = true \/ before y x = true
}.

Lemma strict_on_incl l l' : incl l' l -> strict_on l -> strict_on l'.
Proof.
  intros HI [H1 H2 H3]. constructor; auto. intros x y z Hx Hy Hz. apply H2; auto.
Qed.

Lemma rank_perm l l' x : Permutation l l' -> rank l x = rank l' x.
Proof.
  unfold rank. induction 1; simpl; auto; try congruence.
  - destruct (before x0 x); simpl; congruence.
  - destruct (before y x), (before x0 x); simpl; congruence.
Qed.

Notation R := (fun x y => before x y = true).

Lemma StronglySorted_app l m : StronglySorted R l -> StronglySorted R m ->
  (forall x y, In x l -> In y m -> before x y = true) -> StronglySorted R (l ++ m).
Proof.
  intros Hl Hm H. induction Hl as [|a l Hl IH F]; simpl; auto. constructor.
  - apply IH. intros. apply H; auto. now right.
  - apply Forall_app. split; auto. apply Forall_forall. intros y Hy. apply H; auto. now left.
Qed.
Lemma StronglySorted_filter' f l : StronglySorted R l -> StronglySorted R (filter f l).
Proof.
  induction 1 as [|a l H IH F]; simpl; [constructor|]. destruct (f a); auto. constructor; auto.
  rewrite Forall_forall in *. intros x Hx. apply filter_In in Hx. now apply F.
Qed.

Lemma filter_split_perm f (l : list A) : Permutation l (filter f l ++ filter (fun x => negb (f x)) l).
Proof.
  induction l as [|a l IH]; simpl; auto. destruct (f a); simpl.
  - now constructor.
  - rewrite <- Permutation_middle. now constructor.
Qed.

Lemma sorted_exists l : NoDup l -> strict_on l -> exists s, Permutation l s /\ StronglySorted R s.
Proof.
  induction l as [|x l IH]; intros HN HS.
  - exists []. split; constructor.
  - inversion HN as [|? ? Hx HN']; subst.
    destruct IH as (s & P & S); auto. { eapply strict_on_incl; [|exact HS]. intros y; now right. }
    assert (INs : forall y, In y s -> In y l) by (intros y Hy; eapply Permutation_in; [symmetry; exact P|exact Hy]).
    set (lo := filter (fun y => before y x) s). set (hi := filter (fun y => negb (before y x)) s).
    assert (HIx : forall y, In y hi -> before x y = true).
    { intros y Hy. apply filter_In in Hy as [Hy E]. apply negb_true_iff in E.
      destruct (so_total _ HS x y) as [|E']; auto; [now left|right; auto| |congruence]. intros ->. auto. }
    exists (lo ++ x :: hi). split.
    + rewrite <- Permutation_middle. constructor. rewrite P. apply filter_split_perm.
    + apply StronglySorted_app; [apply StronglySorted_filter'; auto| |].
      * constructor; [apply StronglySorted_filter'; auto|]. apply Forall_forall. auto.
      * intros y z Hy Hz. apply filter_In in Hy as [Hy E]. destruct Hz as [<-|Hz]; auto.
        apply (so_trans _ HS y x z); auto; [now right; auto|now left|]. right. apply filter_In in Hz as [Hz _]. auto.
Qed.

Lemma filter_id (f : A -> bool) l : (forall y, In y l -> f y = true) -> filter f l = l.
Proof.
  induction l as [|a l IH]; simpl; auto. intros H. rewrite H by now left. f_equal. apply IH. intros. apply H. now right.
Qed.

Lemma rank_nth s d i : strict_on s -> StronglySorted R s -> i < length s -> rank s (nth i s d) = i.
Proof.
  intros HS S Hi. destruct (nth_split s d Hi) as (l1 & l2 & E & L).
  set (x := nth i s d) in *. clearbody x. unfold rank. rewrite E, filter_app, app_length. cbn [filter].
  assert (X1 : In x s) by (rewrite E; apply in_elt).
  rewrite (so_irrefl _ HS x X1).
  assert (S' : StronglySorted R (l1 ++ x :: l2)) by now rewrite <- E.
  assert (A1 : forall y, In y l1 -> before y x = true).
  { clear - S'. induction l1 as [|a l1 IH]; simpl in *; [tauto|]. inversion S' as [|? ? S F]; subst.
    rewrite Forall_forall in F. intros y [<-|Hy]; [apply F, in_elt|]. auto. }
  assert (A2 : forall y, In y l2 -> before y x = false).
  { intros y Hy. destruct (before y x) eqn:B; auto. exfalso.
    assert (XY : before x y = true).
    { clear - S' Hy. induction l1 as [|a l1 IH]; simpl in *; inversion S' as [|? ? S F]; subst; auto.
      rewrite Forall_forall in F. auto. }
    assert (In y s) by (rewrite E; apply in_or_app; right; now right).
    pose proof (so_trans _ HS x y x X1 H X1 XY B). rewrite (so_irrefl _ HS x X1) in H0. discriminate. }
  rewrite (filter_id _ l1 A1).
  replace (filter (fun y => before y x) l2) with (@nil A); [simpl; lia|].
  symmetry. clear - A2. induction l2 as [|a l2 IH]; simpl; auto. rewrite A2 by now left. apply IH. intros. apply A2. now right.
Qed.

Lemma filter_slice (f : A -> bool) d s : forall lo hi,
  (forall i, i < length s -> f (nth i s d) = (lo <=? i) && (i <? hi)) ->
  filter f s = firstn (hi - lo) (skipn lo s).
Proof.
  induction s as [|a s IH]; intros lo hi H.
  - now rewrite skipn_nil, firstn_nil.
  - assert (H0 := H 0 ltac:(simpl; lia)). simpl in H0. cbn [filter]. destruct lo as [|lo].
    + destruct hi as [|hi]; simpl in H0; rewrite H0.
      * rewrite (IH 0 0); [reflexivity|]. intros i Hi. specialize (H (S i) ltac:(simpl; lia)). simpl in H. rewrite H.
        symmetry. apply andb_false_iff. right. now apply Nat.ltb_ge; lia.
      * rewrite (IH 0 hi); [simpl; now rewrite Nat.sub_0_r|]. intros i Hi. specialize (H (S i) ltac:(simpl; lia)). simpl in H. rewrite H.
        reflexivity.
    + simpl in H0. rewrite H0. rewrite (IH lo (pred hi)).
      * simpl. f_equal. lia.
      * intros i Hi. specialize (H (S i) ltac:(simpl; lia)). simpl in H. rewrite H.
        apply eq_true_iff_eq. rewrite !andb_true_iff, !Nat.ltb_lt, !Nat.leb_le. lia.
Qed.

Lemma Permutation_filter (f : A -> bool) l m : Permutation l m -> Permutation (filter f l) (filter f m).
Proof.
  induction 1; simpl; auto.
  - destruct (f x); auto.
  - destruct (f x), (f y); auto. constructor.
  - etransitivity; eauto.
Qed.

(** the elements whose rank lies in an interval are a slice of the sorted list *)
Lemma rank_slice l s lo hi : strict_on l -> Permutation l s -> StronglySorted R s ->
  Permutation (filter (fun x => (lo <=? rank l x) && (rank l x <? hi)) l) (firstn (hi - lo) (skipn lo s)).
Proof.
  intros HS P S. rewrite (Permutation_filter _ _ _ P). destruct s as [|d s']; [now rewrite skipn_nil, firstn_nil|].
  set (s := d :: s') in *. rewrite <- (filter_slice (fun x => (lo <=? rank l x) && (rank l x <? hi)) d s lo hi); [reflexivity|].
  intros i Hi. rewrite (rank_perm _ _ _ P), rank_nth; auto.
  eapply strict_on_incl; [|exact HS]. intros y Hy. eapply Permutation_in; [symmetry; exact P|exact Hy].
Qed.

Lemma filter_length_le (f : A -> bool) l : length (filter f l) <= length l.
Proof. induction l as [|a l IH]; simpl; auto. destruct (f a); simpl; lia. Qed.

Lemma rank_lt l x : strict_on l -> In x l -> rank l x < length l.
Proof.
  intros HS Hx. unfold rank.
  assert (H : forall m, In x m -> length (filter (fun y => before y x) m) < length m).
  { assert (B := so_irrefl _ HS x Hx). induction m as [|a m IH]; simpl; [tauto|].
    assert (L : length (filter (fun y => before y x) m) <= length m) by apply filter_length_le.
    intros [->|H]; [rewrite B; lia|]. specialize (IH H). destruct (before a x); simpl; lia. }
  auto.
Qed.

(** elements at most at rank [hi] and elements at least at rank [hi] compare *)
Lemma rank_lt_before l x y : strict_on l -> In x l -> In y l -> rank l x < rank l y -> before x y = true.
Proof.
  intros HS Hx Hy H. destruct (before x y) eqn:B; auto. exfalso.
  assert (X : x <> y) by (intros ->; lia).
  destruct (so_total _ HS x y) as [|B']; auto; [congruence|].
  assert (rank l y <= rank l x); [|lia]. unfold rank.
  assert (G : forall m, incl m l -> length (filter (fun z => before z y) m) <= length (filter (fun z => before z x) m)).
  { induction m as [|z m IH]; intros HI; simpl; auto.
    assert (Hz : In z l) by (apply HI; now left). assert (IH' := IH (fun w Hw => HI w (or_intror Hw))).
    destruct (before z y) eqn:E1; destruct (before z x) eqn:E2; simpl; try lia.
    rewrite (so_trans _ HS z y x Hz Hy Hx E1 B') in E2. discriminate. }
  apply G, incl_refl.
Qed.
End Rank.
