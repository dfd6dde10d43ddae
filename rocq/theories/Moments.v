(** Elementary facts about sums, averages and (co)deviations of lists of real numbers. *)
From Coq Require Import Reals Lra Lia List Permutation.
Require Import Verif.Trimmed_Spec.
Import ListNotations.
Open Scope R_scope.

Lemma total_app l m : total (l ++ m) = total l + total m.
Proof. induction l; simpl; try rewrite IHl; ring. Qed.
Lemma total_perm l m : Permutation l m -> total l = total m.
Proof. induction 1; simpl; lra. Qed.
Lemma total_repeat x k : total (repeat x k) = INR k * x.
Proof. induction k as [|k IH]; [simpl; ring|]. rewrite S_INR. simpl. rewrite IH. ring. Qed.
Lemma avg_perm l m : Permutation l m -> avg l = avg m.
Proof. intros H. unfold avg. now rewrite (total_perm _ _ H), (Permutation_length H). Qed.
Lemma sqdev_perm l m : Permutation l m -> sqdev l = sqdev m.
Proof.
  intros H. unfold sqdev. rewrite (avg_perm _ _ H). apply total_perm. now apply Permutation_map.
Qed.

Lemma combine_map2 {A B D} (f : A -> B) (g : A -> D) l : combine (map f l) (map g l) = map (fun x => (f x, g x)) l.
Proof. induction l; simpl; congruence. Qed.

Section Over.
Context {A : Type} (idx : list A).

(** sum over the index list *)
Definition Sm (f : A -> R) : R := total (map f idx).
Notation n := (INR (length idx)).

Lemma Sm_ext f g : (forall x, In x idx -> f x = g x) -> Sm f = Sm g.
Proof. intros H. unfold Sm. f_equal. now apply map_ext_in. Qed.
Lemma Sm_plus f g : Sm (fun x => f x + g x) = Sm f + Sm g.
Proof. unfold Sm. induction idx; simpl; try rewrite IHl; lra. Qed.
Lemma Sm_minus f g : Sm (fun x => f x - g x) = Sm f - Sm g.
Proof. unfold Sm. induction idx; simpl; try rewrite IHl; lra. Qed.
Lemma Sm_scale c f : Sm (fun x => c * f x) = c * Sm f.
Proof. unfold Sm. induction idx; simpl; [|rewrite IHl]; ring. Qed.
Lemma Sm_const c : Sm (fun _ => c) = n * c.
Proof. unfold Sm. induction idx as [|a l IH]; [simpl; ring|]. cbn [map total fold_right length]. unfold total in IH. rewrite IH, S_INR. ring. Qed.
Lemma Sm_nonneg f : (forall x, In x idx -> 0 <= f x) -> 0 <= Sm f.
Proof.
  unfold Sm. induction idx as [|a l IH]; simpl; intros H; [lra|].
  assert (0 <= f a) by (apply H; now left).
  assert (0 <= total (map f l)) by (apply IH; intros; apply H; now right). lra.
Qed.
Lemma Sm_le f g : (forall x, In x idx -> f x <= g x) -> Sm f <= Sm g.
Proof.
  intros H. assert (0 <= Sm (fun x => g x - f x)); [|rewrite Sm_minus in *; lra].
  apply Sm_nonneg. intros x Hx. specialize (H x Hx). lra.
Qed.
Lemma Sm_zero_inv f : (forall x, In x idx -> 0 <= f x) -> Sm f = 0 -> forall x, In x idx -> f x = 0.
Proof.
  unfold Sm. induction idx as [|a l IH]; simpl; intros H Av x Hx; [tauto|].
  assert (0 <= f a) by (apply H; now left).
  assert (0 <= total (map f l)).
  { clear - H. induction l; simpl; [lra|].
    assert (0 <= f a0) by (apply H; right; now left).
    assert (0 <= total (map f l)); [|lra]. apply IHl. intros; apply H. destruct H1; [now left|right; now right]. }
  destruct Hx as [<-|Hx]; [lra|]. apply IH; auto. lra.
Qed.

(** average of a function over the index list *)
Definition Av (f : A -> R) : R := avg (map f idx).
Lemma Av_S f : Av f = Sm f / n.
Proof. unfold Av, avg, Sm. now rewrite map_length. Qed.

Definition Cv (f g : A -> R) : R := codev (map f idx) (map g idx).
Lemma Cv_S f g : Cv f g = Sm (fun x => (f x - Av f) * (g x - Av g)).
Proof. unfold Cv, codev, Sm. rewrite combine_map2, map_map. reflexivity. Qed.

Lemma Cv_sym f g : Cv f g = Cv g f.
Proof. rewrite !Cv_S. apply Sm_ext. intros; ring. Qed.

Lemma Cv_sqdev f : Cv f f = sqdev (map f idx).
Proof. rewrite Cv_S. unfold sqdev, Sm. rewrite map_map. f_equal. apply map_ext. intros x. fold (Av f). ring. Qed.

Lemma Cv_nonneg f : 0 <= Cv f f.
Proof. rewrite Cv_S. apply Sm_nonneg. intros x _. apply Rle_0_sqr. Qed.

Hypothesis idx_nonempty : idx <> [].
Lemma n_pos : 0 < n.
Proof. destruct idx; [congruence|]. apply lt_0_INR. simpl. lia. Qed.

Lemma Av_plus f g : Av (fun x => f x + g x) = Av f + Av g.
Proof. rewrite !Av_S, Sm_plus. unfold Rdiv. ring. Qed.
Lemma Av_scale c f : Av (fun x => c * f x) = c * Av f.
Proof. rewrite !Av_S, Sm_scale. unfold Rdiv. ring. Qed.
Lemma Av_const c : Av (fun _ => c) = c.
Proof. rewrite Av_S, Sm_const. field. apply Rgt_not_eq, n_pos. Qed.
Lemma Av_lin a b f g : Av (fun x => a * f x + b * g x) = a * Av f + b * Av g.
Proof. now rewrite (Av_plus (fun x => a * f x)), !Av_scale. Qed.
Lemma Av_ext f g : (forall x, In x idx -> f x = g x) -> Av f = Av g.
Proof. intros H. rewrite !Av_S. f_equal. now apply Sm_ext. Qed.

Lemma Cv_ext f f' g g' : (forall x, In x idx -> f x = f' x) -> (forall x, In x idx -> g x = g' x) -> Cv f g = Cv f' g'.
Proof.
  intros H K. rewrite !Cv_S, (Av_ext _ _ H), (Av_ext _ _ K). apply Sm_ext.
  intros x Hx. now rewrite H, K.
Qed.

Lemma Cv_lin_l a b f g h : Cv (fun x => a * f x + b * g x) h = a * Cv f h + b * Cv g h.
Proof.
  rewrite !Cv_S, Av_lin. rewrite <- !Sm_scale, <- Sm_plus. apply Sm_ext. intros; ring.
Qed.
Lemma Cv_lin_r a b f g h : Cv h (fun x => a * f x + b * g x) = a * Cv h f + b * Cv h g.
Proof. rewrite Cv_sym, Cv_lin_l. now rewrite (Cv_sym f), (Cv_sym g). Qed.
Lemma Cv_const_l c h : Cv (fun _ => c) h = 0.
Proof.
  rewrite Cv_S, Av_const. rewrite (Sm_ext _ (fun _ => 0)) by (intros; ring). rewrite Sm_const. ring.
Qed.
Lemma Cv_const_r c h : Cv h (fun _ => c) = 0.
Proof. rewrite Cv_sym. apply Cv_const_l. Qed.

(** variance of a linear combination *)
Lemma Cv_lin2 a b f g :
  Cv (fun x => a * f x + b * g x) (fun x => a * f x + b * g x) = a ^ 2 * Cv f f + 2 * a * b * Cv f g + b ^ 2 * Cv g g.
Proof. rewrite Cv_lin_l, !Cv_lin_r, (Cv_sym g f). ring. Qed.

(** Cauchy-Schwarz *)
Lemma Cv_cauchy f g : Cv f g ^ 2 <= Cv f f * Cv g g.
Proof.
  assert (F := Cv_nonneg f). assert (G := Cv_nonneg g).
  destruct (Req_dec (Cv g g) 0) as [Z|Z].
  - assert (H := Cv_nonneg (fun x => 1 * f x + (- (Cv f f + 1) / 2 * (if Req_EM_T (Cv f g) 0 then 0 else / Cv f g)) * g x)).
    rewrite Cv_lin2 in H. rewrite Z in *.
    destruct (Req_EM_T (Cv f g) 0) as [E0|E0]; [rewrite E0; nra|].
    exfalso. replace (2 * 1 * (- (Cv f f + 1) / 2 * / Cv f g) * Cv f g) with (- (Cv f f + 1)) in H by (field; auto).
    nra.
  - assert (H := Cv_nonneg (fun x => Cv g g * f x + (- Cv f g) * g x)). rewrite Cv_lin2 in H.
    assert (P : 0 < Cv g g) by lra.
    assert (0 <= Cv g g * (Cv f f * Cv g g - Cv f g ^ 2)) by (eapply Rle_trans; [exact H|right; ring]).
    assert (0 <= Cv f f * Cv g g - Cv f g ^ 2); [|lra].
    apply Rnot_lt_le. intros K. nra.
Qed.

(** zero deviation means constant *)
Lemma Cv_zero_const f : Cv f f = 0 -> forall x, In x idx -> f x = Av f.
Proof.
  intros H x Hx. rewrite Cv_S in H.
  assert (K : (fun x => (f x - Av f) * (f x - Av f)) x = 0).
  { apply (Sm_zero_inv (fun x => (f x - Av f) * (f x - Av f))); auto. intros; apply Rle_0_sqr. }
  simpl in K. nra.
Qed.
End Over.

Lemma Sm_perm {A} (l m : list A) f : Permutation l m -> Sm l f = Sm m f.
Proof. intros H. apply total_perm. now apply Permutation_map. Qed.

Lemma codev_self l : codev l l = sqdev l.
Proof. assert (H := Cv_sqdev l (fun x => x)). unfold Cv in H. now rewrite map_id in H. Qed.
