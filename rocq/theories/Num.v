(** Extended real numbers: the values of a float64 column or of numpy float arithmetic with
    rounding ignored.  Infinities, NaN, division by zero and comparisons follow IEEE-754 /
    numpy; signed zeros are not distinguished (x/0 is +inf for x>0 and -inf for x<0). *)
From Coq Require Import Reals Lra List Bool.
From Flocq Require Import Core.Raux.
Import ListNotations.
Open Scope R_scope.

Inductive num : Type := Fin (r : R) | PInf | NInf | NaN.

Definition nneg (x : num) : num :=
  match x with Fin r => Fin (- r) | PInf => NInf | NInf => PInf | NaN => NaN end.

Definition nadd (x y : num) : num :=
  match x, y with
  | Fin a, Fin b => Fin (a + b)
  | NaN, _ | _, NaN => NaN
  | PInf, NInf | NInf, PInf => NaN
  | PInf, _ | _, PInf => PInf
  | NInf, _ | _, NInf => NInf
  end.

Definition nsub (x y : num) : num := nadd x (nneg y).

(** sign of a number: -1, 0, 1 as comparison with zero *)
Definition ninf_of (s : R) : num :=
  if Rlt_bool 0 s then PInf else if Rlt_bool s 0 then NInf else NaN.

Definition nmul (x y : num) : num :=
  match x, y with
  | Fin a, Fin b => Fin (a * b)
  | NaN, _ | _, NaN => NaN
  | Fin a, PInf | PInf, Fin a => ninf_of a
  | Fin a, NInf | NInf, Fin a => ninf_of (- a)
  | PInf, PInf | NInf, NInf => PInf
  | PInf, NInf | NInf, PInf => NInf
  end.

(** numpy true division *)
Definition ndiv (x y : num) : num :=
  match x, y with
  | Fin a, Fin b => if Req_bool b 0 then ninf_of a else Fin (a / b)
  | NaN, _ | _, NaN => NaN
  | Fin _, _ => Fin 0
  | PInf, Fin b => if Rlt_bool b 0 then NInf else PInf
  | NInf, Fin b => if Rlt_bool b 0 then PInf else NInf
  | _, _ => NaN
  end.

(** np.sqrt *)
Definition nsqrt (x : num) : num :=
  match x with
  | Fin a => if Rlt_bool a 0 then NaN else Fin (sqrt a)
  | PInf => PInf
  | _ => NaN
  end.

Definition nabs (x : num) : num :=
  match x with Fin a => Fin (Rabs a) | PInf | NInf => PInf | NaN => NaN end.

(** comparisons are false on NaN *)
Definition nltb (x y : num) : bool :=
  match x, y with
  | Fin a, Fin b => Rlt_bool a b
  | NaN, _ | _, NaN => false
  | Fin _, PInf | NInf, Fin _ | NInf, PInf => true
  | _, _ => false
  end.

Definition nleb (x y : num) : bool :=
  match x, y with
  | Fin a, Fin b => Rle_bool a b
  | NaN, _ | _, NaN => false
  | NInf, _ | _, PInf => true
  | _, _ => false
  end.

Definition neqb (x y : num) : bool :=
  match x, y with
  | Fin a, Fin b => Req_bool a b
  | PInf, PInf | NInf, NInf => true
  | _, _ => false
  end.

Definition nis_nan (x : num) : bool := match x with NaN => true | _ => false end.
Definition nis_fin (x : num) : bool := match x with Fin _ => true | _ => false end.

Fixpoint nsum (l : list num) : num :=
  match l with [] => Fin 0 | x :: r => nadd x (nsum r) end.

Arguments nadd : simpl nomatch.

Lemma ndiv_fin a b : b <> 0 -> ndiv (Fin a) (Fin b) = Fin (a / b).
Proof. intros H. simpl. now rewrite Req_bool_false. Qed.

Lemma nsqrt_fin a : 0 <= a -> nsqrt (Fin a) = Fin (sqrt a).
Proof. intros H. simpl. now rewrite Rlt_bool_false. Qed.

Lemma nsub_fin a b : nsub (Fin a) (Fin b) = Fin (a - b).
Proof. reflexivity. Qed.

Lemma nltb_fin a b : nltb (Fin a) (Fin b) = true <-> a < b.
Proof. simpl. case Rlt_bool_spec; intros; split; intros; try lra; congruence. Qed.
Lemma nltb_fin_false a b : nltb (Fin a) (Fin b) = false <-> b <= a.
Proof. simpl. case Rlt_bool_spec; intros; split; intros; try lra; congruence. Qed.
Lemma nleb_fin a b : nleb (Fin a) (Fin b) = true <-> a <= b.
Proof. simpl. case Rle_bool_spec; intros; split; intros; try lra; congruence. Qed.
Lemma neqb_fin a b : neqb (Fin a) (Fin b) = true <-> a = b.
Proof. simpl. case Req_bool_spec; intros; split; intros; try lra; congruence. Qed.

Lemma nadd_comm x y : nadd x y = nadd y x.
Proof. destruct x, y; simpl; auto. f_equal; ring. Qed.

Lemma nadd_assoc x y z : nadd x (nadd y z) = nadd (nadd x y) z.
Proof. destruct x, y, z; simpl; auto. f_equal; ring. Qed.

Lemma nadd_0_l x : nadd (Fin 0) x = x.
Proof. destruct x; simpl; auto. f_equal; ring. Qed.

Lemma nsum_app l1 l2 : nsum (l1 ++ l2) = nadd (nsum l1) (nsum l2).
Proof.
  induction l1; simpl. now rewrite nadd_0_l. now rewrite IHl1, nadd_assoc.
Qed.

Lemma nsum_fin (l : list R) : nsum (map Fin l) = Fin (fold_right Rplus 0 l).
Proof. induction l; simpl; auto. now rewrite IHl. Qed.
