(** C108: totals and averages of doubles, added up with rounding. *)
From Coq Require Import ZArith List.
From Flocq Require Import Core BinarySingleNaN.
Require Import Verif.F64 Verif.Table_Model.
Import ListNotations.

(** statistics.py:147, 170, 306; experiment_analysis.py:552-553, 572; experiment_simulations.py:633, 660
    [np.sum], [np.mean], [Series.mean]: numpy adds partial sums of blocks, and both the blocks and the
    order depend on the memory layout and the processor.  Every such order is a tree of additions. *)
Inductive order :=
| Value (x : f64)
| Plus (l r : order).

Fixpoint values (o : order) : list f64 :=
  match o with Value x => [x] | Plus l r => values l ++ values r end.

(** the result of the additions, each rounded to the nearest double *)
Fixpoint added (o : order) : f64 :=
  match o with Value x => x | Plus l r => fadd (added l) (added r) end.

(** the longest chain of additions that one value takes part in *)
Fixpoint depth (o : order) : nat :=
  match o with Value _ => 0 | Plus l r => S (Nat.max (depth l) (depth r)) end.

(** one value after the other *)
Definition in_sequence (x : f64) (l : list f64) : order :=
  fold_left (fun o y => Plus o (Value y)) l (Value x).

(** statistics.py:147: the mean is the total divided by the number of values *)
Definition averaged (o : order) : f64 :=
  fdiv (added o) (of_Z (Z.of_nat (length (values o)))).

(** data_preparation.py:1772-1776, plotting.py:173, 185, 351 and the pivot tables of the analysis
    (experiment_analysis.py:256-263): the [sum] and [mean] of a pandas groupby carry along what the
    previous addition has lost ("Kahan summation").  [state] is the total and the compensation.
    Simplified: pandas resets a compensation that is nan, which needs infinite values. *)
Definition compensated_step (state : f64 * f64) (x : f64) : f64 * f64 :=
  let (total, lost) := state in
  let y := fsub x lost in
  let t := fadd total y in
  (t, fsub (fsub t total) y).
Definition grouped_state (l : list f64) : f64 * f64 := fold_left compensated_step l (f0, f0).
Definition grouped (l : list f64) : f64 := fst (grouped_state l).
Definition grouped_mean (l : list f64) : f64 := fdiv (grouped l) (of_Z (Z.of_nat (length l))).
