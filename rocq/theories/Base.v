(** Base vocabulary of the model: Python exceptions as values, generic list
    helpers.  Nothing here models a particular function of /repo. *)
From Coq Require Import ZArith List String Bool Lia.
Import ListNotations.

(** Python exceptions that the modelled code can raise.  The string names the raise
    site (a short tag, not the user-facing message). *)
Inductive exn : Type :=
| ValueError (site : string)
| KeyError (site : string)
| IndexError (site : string)
| TypeError (site : string)
| ZeroDivisionError (site : string)
| OverflowError (site : string)
| RuntimeError (site : string)
| AssertionError (site : string)
| FileNotFoundError (site : string).

Inductive result (A : Type) : Type :=
| Ok (a : A)
| Err (e : exn).
Arguments Ok {A} a.
Arguments Err {A} e.

Definition bind {A B} (x : result A) (f : A -> result B) : result B :=
  match x with Ok a => f a | Err e => Err e end.

Notation "'let!' x := c 'in' k" := (bind c (fun x => k))
  (at level 200, x pattern, c at level 100, k at level 200, right associativity).

(** [raise_if b e] : the Python statement "if b: raise e". *)
Definition raise_if (b : bool) (e : exn) : result unit :=
  if b then Err e else Ok tt.

Definition is_ok {A} (x : result A) : Prop := exists a, x = Ok a.

(** Python list comprehension whose body may raise: left to right, first error wins. *)
Fixpoint mapM {A B} (f : A -> result B) (l : list A) : result (list B) :=
  match l with
  | [] => Ok []
  | a :: l' =>
      match f a with
      | Err e => Err e
      | Ok b => match mapM f l' with Err e => Err e | Ok bs => Ok (b :: bs) end
      end
  end.

Lemma bind_ok {A B} (x : result A) (f : A -> result B) b :
  bind x f = Ok b <-> exists a, x = Ok a /\ f a = Ok b.
Proof.
  destruct x; simpl; split.
  - intros H; eauto.
  - intros (a0 & H & H0). now inversion H; subst.
  - discriminate.
  - intros (a0 & H & _). discriminate.
Qed.

Lemma raise_if_ok b e u : raise_if b e = Ok u <-> b = false.
Proof. destruct b; destruct u; simpl; split; congruence. Qed.

Lemma mapM_ok {A B} (f : A -> result B) l bs :
  mapM f l = Ok bs <-> Forall2 (fun a b => f a = Ok b) l bs.
Proof.
  revert bs; induction l as [|a l IH]; intros bs; simpl.
  - split; [intros H; inversion H; constructor | inversion 1; reflexivity].
  - destruct (f a) as [b|e] eqn:Ef.
    + destruct (mapM f l) as [bs'|e'] eqn:Em.
      * split.
        -- intros H; inversion H; subst. constructor; auto. now apply IH.
        -- inversion 1; subst. assert (b = y) by congruence; subst.
           apply IH in H4. now inversion H4; subst.
      * split; [discriminate|]. inversion 1; subst. apply IH in H4. discriminate.
    + split; [discriminate|]. inversion 1; subst. congruence.
Qed.

Lemma mapM_total {A B} (f : A -> result B) (g : A -> B) l :
  (forall a, In a l -> f a = Ok (g a)) -> mapM f l = Ok (map g l).
Proof.
  induction l as [|a l IH]; intros H; simpl; auto.
  rewrite (H a) by now left. rewrite IH; auto. intros; apply H; now right.
Qed.

Lemma mapM_err {A B} (f : A -> result B) l a :
  In a l -> (forall b, f a <> Ok b) -> forall bs, mapM f l <> Ok bs.
Proof.
  intros Hin Hf bs H. apply mapM_ok in H.
  induction H; simpl in *; [tauto|].
  destruct Hin; subst; firstorder congruence.
Qed.
