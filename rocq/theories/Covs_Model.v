(** C110: winsorized covariances of doubles, with rounding. *)
From Coq Require Import ZArith List.
From Flocq Require Import Core BinarySingleNaN.
Require Import Verif.F64 Verif.Table_Model Verif.Vars_Model.
Import ListNotations.

(** statistics.py:203: one entry of [resid @ resid.T] for two rows, in any order of the additions, with or
    without fused operations (see [squares]).  The values of the two rows come in pairs. *)
Inductive products :=
| Product (x y : f64)
| FusedProduct (q : products) (x y : f64)
| JoinedProducts (l r : products).

Fixpoint factors (q : products) : list (f64 * f64) :=
  match q with
  | Product x y => [(x, y)]
  | FusedProduct q x y => factors q ++ [(x, y)]
  | JoinedProducts l r => factors l ++ factors r
  end.

(** statistics.py:199, 203: the products of the residuals about [c] and [d] *)
Fixpoint multiplied (c d : f64) (q : products) : f64 :=
  match q with
  | Product x y => fmul (fsub x c) (fsub y d)
  | FusedProduct q x y => ffma (fsub x c) (fsub y d) (multiplied c d q)
  | JoinedProducts l r => fadd (multiplied c d l) (multiplied c d r)
  end.

(** the longest chain of roundings after the subtraction that one product takes part in *)
Fixpoint product_rounds (q : products) : nat :=
  match q with
  | Product _ _ => 1
  | FusedProduct q _ _ => S (product_rounds q)
  | JoinedProducts l r => S (Nat.max (product_rounds l) (product_rounds r))
  end.

(** statistics.py:200-207, the entry of two rows with the centres [c] and [d], the values [low] and [high]
    at the smallest and the largest kept value of the first row, and [k] values trimmed on each side *)
Definition winsorized_covariance (q : products) (c d : f64) (low high : f64 * f64) (k : nat) (divisor : Z) : f64 :=
  let lows := fmul (fsub (fst low) c) (fsub (snd low) d) in
  let highs := fmul (fsub (fst high) c) (fsub (snd high) d) in
  fdiv (fadd (multiplied c d q) (fmul (of_Z (Z.of_nat k)) (fadd lows highs))) (of_Z divisor).
