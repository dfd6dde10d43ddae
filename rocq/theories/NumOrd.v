(** The order of the numbers that are not NaN. *)
From Coq Require Import Reals List Bool Lra.
From Flocq Require Import Core.
Require Import Verif.Num.
Open Scope R_scope.

Ltac num_cases :=
  repeat match goal with
  | H : context [Rlt_bool ?a ?b] |- _ => destruct (Rlt_bool_spec a b) in H
  | H : context [Rle_bool ?a ?b] |- _ => destruct (Rle_bool_spec a b) in H
  | H : context [Req_bool ?a ?b] |- _ => destruct (Req_bool_spec a b) in H
  | |- context [Rlt_bool ?a ?b] => destruct (Rlt_bool_spec a b)
  | |- context [Rle_bool ?a ?b] => destruct (Rle_bool_spec a b)
  | |- context [Req_bool ?a ?b] => destruct (Req_bool_spec a b)
  end; try reflexivity; try discriminate; try (exfalso; lra).

Lemma nltb_irrefl x : nltb x x = false.
Proof. destruct x; simpl; num_cases. Qed.

Lemma nltb_trans x y z : nltb x y = true -> nltb y z = true -> nltb x z = true.
Proof. destruct x, y, z; simpl; intros; num_cases. Qed.

Lemma neqb_eq x y : neqb x y = true -> x = y.
Proof. destruct x, y; simpl; intros; try discriminate; num_cases. congruence. Qed.

Lemma neqb_refl x : x <> NaN -> neqb x x = true.
Proof. destruct x; simpl; intros; num_cases. congruence. Qed.

Lemma nltb_total x y : x <> NaN -> y <> NaN -> nltb x y = true \/ x = y \/ nltb y x = true.
Proof.
  destruct x, y; simpl; intros; try congruence; auto.
  destruct (Rtotal_order r r0) as [H1|[H1|H1]]; [left|right; left|right; right]; try congruence; now apply Rlt_bool_true.
Qed.

Lemma nltb_asym x y : nltb x y = true -> nltb y x = false.
Proof. destruct x, y; simpl; intros; num_cases. Qed.

Lemma nltb_nleb x y : nltb x y = true -> nleb x y = true.
Proof. destruct x, y; simpl; intros; num_cases. Qed.

Lemma nleb_refl x : x <> NaN -> nleb x x = true.
Proof. destruct x; simpl; intros; num_cases. congruence. Qed.

Lemma nleb_antisym x y : nleb x y = true -> nleb y x = true -> x = y.
Proof. destruct x, y; simpl; intros; try discriminate; num_cases. f_equal. lra. Qed.

Lemma nleb_trans x y z : nleb x y = true -> nleb y z = true -> nleb x z = true.
Proof. destruct x, y, z; simpl; intros; num_cases. Qed.

Lemma nltb_not_nan x y : nltb x y = true -> x <> NaN /\ y <> NaN.
Proof. destruct x, y; simpl; intros; split; congruence. Qed.

Lemma nis_nan_iff x : nis_nan x = false <-> x <> NaN.
Proof. destruct x; simpl; split; congruence. Qed.
