(** Specification vocabulary for rows, weeks and weekly totals. *)
From Coq Require Import ZArith Reals List String Bool.
From Flocq Require Import Core BinarySingleNaN.
Require Import Verif.Num Verif.F64 Verif.Rows_Model.
Import ListNotations.
Open Scope Z_scope.

(** length of a week in nanoseconds *)
Definition week_ns : Z := 7 * 24 * 3600 * 1000000000.
Definition day_ns : Z := 24 * 3600 * 1000000000.

(** [k] is the week of [date] when week 0 begins at [start] *)
Definition in_week (start date k : Z) : Prop :=
  start + k * week_ns <= date < start + (k + 1) * week_ns.

(** total of a quantity over the rows satisfying a (decidable) condition, missing values
    counting as nothing *)
Definition total {R} (cond : R -> bool) (val : R -> num) (rows : list R) : num :=
  fold_right (fun r acc => nadd (if cond r then match val r with NaN => Fin 0 | v => v end else Fin 0) acc)
    (Fin 0) rows.

(** the set of values has exactly [n] elements *)
Definition has_card {A} (P : A -> Prop) (n : nat) : Prop :=
  exists l, NoDup l /\ List.length l = n /\ forall x, In x l <-> P x.

(** rows of one weekly group *)
Definition same_group (g : grow) (r : wrow) : Prop :=
  w_week r = g_week g /\ w_start r = g_start g /\ o_item (w_obs r) = g_item g /\ w_extra r = g_extra g.
Definition same_groupb (g : grow) (r : wrow) : bool :=
  (w_week r =? g_week g) && (w_start r =? g_start g) && String.eqb (o_item (w_obs r)) (g_item g)
  && (if list_eq_dec string_dec (w_extra r) (g_extra g) then true else false).

(** consecutive distinct dates are [n] days apart (up to the time of day, whole days are
    counted) *)
Definition evenly_spaced (n : Z) (dates : list Z) : Prop :=
  forall a b, In a dates -> In b dates -> a < b -> (forall c, In c dates -> ~ (a < c < b)) ->
    n * day_ns <= b - a < (n + 1) * day_ns.
