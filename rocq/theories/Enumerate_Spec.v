(** Specification vocabulary for design enumeration. *)
From Coq Require Import ZArith Reals List String Bool.
From Flocq Require Import Core BinarySingleNaN.
Require Import Verif.F64 Verif.Design_Model Verif.Design_Spec.
Import ListNotations.
Open Scope Z_scope.

(** candidate values of one combination *)
Record cand := mkCand { c_run : Z; c_pre : Z; c_top : f64; c_bot : f64; c_post : f64 }.

(** all combinations, the last candidate varying fastest *)
Definition candidates (rs ps : list Z) (ts bs qs : list f64) : list cand :=
  flat_map (fun r => flat_map (fun p => flat_map (fun t => flat_map (fun b =>
    map (fun q => mkCand r p t b q) qs) bs) ts) ps) rs.

(** a combination that does not ask for pre-trimming without pretest weeks.  For finite
    percentiles with a representable sum: pretest weeks are nonzero, or the sum is not
    positive *)
Definition pretrim_possible (c : cand) : Prop :=
  c_pre c <> 0 \/ ~ (fltb f0 (fadd (c_top c) (c_bot c)) = true).

Definition pretrim_possibleb (c : cand) : bool :=
  negb (c_pre c =? 0) || negb (fltb f0 (fadd (c_top c) (c_bot c))).

(** the parameters of the designs wanted for one combination, in order: default alpha 0.05,
    power 0.8, no salt *)
Definition wanted_for (n : Z) (m : string) (xallowed tallowed : bool) (w : Z) (c : cand)
  : list params :=
  if pretrim_possibleb c then
    (if tallowed then
       [mkParams n (c_run c) m (c_pre c) false (c_top c) (c_bot c) (c_post c) None
          (flit 5 100) (flit 8 10) None] else []) ++
    (if xallowed && Z.even (c_run c) && (2 * w <? c_run c) then
       [mkParams n (c_run c) m (c_pre c) true (c_top c) (c_bot c) (c_post c) (Some w)
          (flit 5 100) (flit 8 10) None] else [])
  else [].

Definition wanted n m xallowed tallowed w rs ps ts bs qs : list params :=
  flat_map (wanted_for n m xallowed tallowed w) (candidates rs ps ts bs qs).

(** a start week that leaves room for every candidate inside the historical range *)
Definition room_for (rs ps hist : list Z) (s : Z) : Prop :=
  forall r p, In r rs -> In p ps ->
    (exists a, In a hist /\ a <= s - p) /\ (exists b, In b hist /\ s + r - 1 <= b).
