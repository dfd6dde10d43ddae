(** Specification vocabulary for trimmed statistics: order statistics and elementary moments,
    independent of the model. *)
From Coq Require Import Reals List Bool Permutation Sorting.Sorted.
Require Import Verif.Num.
Import ListNotations.
Open Scope R_scope.

(** order of floats used by numpy sorting: NaN comes last *)
Definition nan_last (x y : num) : Prop := nleb x y = true \/ y = NaN.

(** [s] is [l] in ascending order *)
Definition ascending (l s : list num) : Prop := Permutation l s /\ StronglySorted nan_last s.

(** what is assumed of np.argsort: a permutation of the positions that sorts the values *)
Definition sorts (argsort : list num -> list nat) : Prop :=
  forall l, Permutation (argsort l) (seq 0 (length l)) /\
            StronglySorted (fun i j => nan_last (nth i l NaN) (nth j l NaN)) (argsort l).

(** order statistics k+1 .. n-k *)
Definition middle {A} (k : nat) (s : list A) : list A := firstn (length s - 2 * k) (skipn k s).

Definition total (l : list R) : R := fold_right Rplus 0 l.
Definition avg (l : list R) : R := total l / INR (length l).
(** sum of products of deviations from the averages *)
Definition codev (l m : list R) : R :=
  total (map (fun p => (fst p - avg l) * (snd p - avg m)) (combine l m)).
Definition sqdev (l : list R) : R := total (map (fun x => (x - avg l) ^ 2) l).

Definition clip (lo hi x : R) : R := Rmax lo (Rmin hi x).

(** least / greatest element *)
Definition least (l : list R) (m : R) : Prop := In m l /\ forall x, In x l -> m <= x.
Definition greatest (l : list R) (m : R) : Prop := In m l /\ forall x, In x l -> x <= m.
