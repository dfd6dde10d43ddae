(** Specification vocabulary for the pivoted table. *)
From Coq Require Import ZArith Reals List String Bool.
Require Import Verif.Num Verif.Rows_Spec Verif.Pivot_Model.
Import ListNotations.
Open Scope string_scope.
Open Scope Z_scope.

(** the entry of the table for an index value and a column; None if there is none *)
Fixpoint assoc {A B} (eqb : A -> A -> bool) (a : A) (l : list (A * B)) : option B :=
  match l with
  | [] => None
  | (x, b) :: r => if eqb a x then Some b else assoc eqb a r
  end.
Definition entry {K} (eqb : K -> K -> bool) (t : table K) (k : K) (metric period : string) : option num :=
  match assoc eqb k (t_rows t) with
  | None => None
  | Some vs => assoc (fun a b => String.eqb (fst a) (fst b) && String.eqb (snd a) (snd b)) (metric, period)
                 (combine (t_cols t) vs)
  end.

(** the value of a metric in a row *)
Definition metric_value {K} (metrics : list string) (m : string) (r : prow K) : num :=
  match assoc String.eqb m (combine metrics (p_vals r)) with Some v => v | None => NaN end.

(** no infinite value *)
Definition not_infinite (x : num) : Prop := x <> PInf /\ x <> NInf.
