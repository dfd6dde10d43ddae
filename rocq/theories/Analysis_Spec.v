(** Specification vocabulary for the analysis of an experiment. *)
From Coq Require Import ZArith Reals List String.
Require Import Verif.Num Verif.Pivot_Model.
Import ListNotations.
Open Scope string_scope.
Open Scope R_scope.

(** the column [c] of the table holds the values [v], top to bottom *)
Definition holds {K} (t : table K) (c : string * string) (v : list num) : Prop :=
  exists i, nth_error (t_cols t) i = Some c /\ Forall2 (fun r x => nth_error (snd r) i = Some x) (t_rows t) v.
(** the arms of the rows of the table *)
Definition in_arms {K} (arm : K -> option Z) (t : table K) (l : list (option Z)) : Prop :=
  map (fun r => arm (fst r)) (t_rows t) = l.

(** an item of a crossover experiment: its arm and its values in the two test periods.  Items of arm 1
    are treated in the first period, all others in the second one. *)
Record cross (V : Type) : Type := mkX { x_arm : option Z; x_one : V; x_two : V }.
Arguments mkX {V}. Arguments x_arm {V}. Arguments x_one {V}. Arguments x_two {V}.
Definition in_treatment_arm (a : option Z) : bool := match a with Some 1%Z => true | _ => false end.
Definition while_treated {V} (c : cross V) : V := if in_treatment_arm (x_arm c) then x_one c else x_two c.
Definition while_control {V} (c : cross V) : V := if in_treatment_arm (x_arm c) then x_two c else x_one c.

Definition finite (c : cross R) : cross num := mkX (x_arm c) (Fin (x_one c)) (Fin (x_two c)).
(** the items of a crossover table *)
Definition crossover_items {K} (arm : K -> option Z) (t : table K) (m : string) (l : list (cross num)) : Prop :=
  in_arms arm t (map x_arm l) /\ holds t (m, "test_1") (map x_one l) /\ holds t (m, "test_2") (map x_two l).

(** an effect on the treated period of every item *)
Definition affected {V} (f : V -> V) (c : cross V) : cross V :=
  if in_treatment_arm (x_arm c) then mkX (x_arm c) (f (x_one c)) (x_two c) else mkX (x_arm c) (x_one c) (f (x_two c)).

(** the share of items treated first *)
Definition share_first (l : list (cross R)) : R :=
  INR (List.length (filter (fun c => in_treatment_arm (x_arm c)) l)) / INR (List.length l).

(** the items of a regular experiment: arms and values *)
Definition regular_items {K} (arm : K -> option Z) (t : table K) (m : string) (l : list (option Z * num)) : Prop :=
  in_arms arm t (map fst l) /\ holds t (m, "test") (map snd l).
Definition values_of_arm {V} (a : Z) (l : list (option Z * V)) : list V :=
  map snd (filter (fun x => match fst x with Some z => Z.eqb z a | None => false end) l).
Definition affected_regular {V} (f : V -> V) (x : option Z * V) : option Z * V :=
  if in_treatment_arm (fst x) then (fst x, f (snd x)) else x.
