(** C110: winsorized means, variances and standard deviations of doubles, with rounding. *)
From Coq Require Import ZArith List.
From Flocq Require Import Core BinarySingleNaN.
Require Import Verif.F64 Verif.Table_Model Verif.Sums_Model.
Import ListNotations.

(** the product of two doubles plus a third, rounded once (see [Fused]; statistics.py:203) *)
Definition ffma (x y z : f64) : f64 := Bfma mode_NE x y z.
(** statistics.py:255 [np.sqrt] *)
Definition fsqrt (x : f64) : f64 := Bsqrt mode_NE x.

(** statistics.py:203: [resid @ resid.T] for one row.  The matrix product adds the squares in an
    order that depends on the library and the processor, and may round each square before it is added
    or only their sum ("fused multiply-add"). *)
Inductive squares :=
| Square (x : f64)
| Fused (q : squares) (x : f64)
| Joined (l r : squares).

Fixpoint operands (q : squares) : list f64 :=
  match q with Square x => [x] | Fused q x => operands q ++ [x] | Joined l r => operands l ++ operands r end.

(** statistics.py:199, 203: the squares of the residuals about [c] *)
Fixpoint squared (c : f64) (q : squares) : f64 :=
  match q with
  | Square x => let r := fsub x c in fmul r r
  | Fused q x => let r := fsub x c in ffma r r (squared c q)
  | Joined l r => fadd (squared c l) (squared c r)
  end.

(** the longest chain of roundings after the subtraction that one square takes part in *)
Fixpoint rounds (q : squares) : nat :=
  match q with Square _ => 1 | Fused q _ => S (rounds q) | Joined l r => S (Nat.max (rounds l) (rounds r)) end.

(** statistics.py:169-172 for one row: [o] are the kept values, [lo] and [hi] their smallest and largest
    value, [k] the number trimmed on each side and [n] the original number *)
Definition winsorized_average (o : order) (lo hi : f64) (k n : nat) : f64 :=
  fdiv (fadd (added o) (fmul (of_Z (Z.of_nat k)) (fadd lo hi))) (of_Z (Z.of_nat n)).

(** statistics.py:200-207 for one row, about the centre [c] *)
Definition winsorized_variance (q : squares) (c lo hi : f64) (k : nat) (divisor : Z) : f64 :=
  let low := fsub lo c in
  let high := fsub hi c in
  fdiv (fadd (squared c q) (fmul (of_Z (Z.of_nat k)) (fadd (fmul low low) (fmul high high)))) (of_Z divisor).
