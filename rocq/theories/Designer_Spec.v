(** Specification vocabulary for the designer's journey. *)
From Coq Require Import ZArith Reals List String Bool.
Require Import Verif.Num Verif.Rows_Model.
Import ListNotations.
Open Scope string_scope.
Open Scope Z_scope.

(** every item has exactly one row in every week from [lo] to [hi], and there are no other rows *)
Definition panel (rows : list grow) (items : list string) (lo hi : Z) : Prop :=
  items <> [] /\ NoDup items /\ lo <= hi /\
  (forall g, In g rows -> In (g_item g) items /\ lo <= g_week g <= hi) /\
  (forall i w, In i items -> lo <= w <= hi ->
     List.length (filter (fun g => String.eqb (g_item g) i && (g_week g =? w))%bool rows) = 1%nat).

(** the weeks are seven days apart *)
Definition weekly_starts (rows : list grow) : Prop :=
  forall g h, In g rows -> In h rows -> g_start h - g_start g = (g_week h - g_week g) * (7 * day).

(** metric values are numbers that are not negative *)
Definition amounts (rows : list grow) : Prop :=
  forall g, In g rows -> exists r, nth 0 (g_vals g) NaN = Fin r /\ (0 <= r)%R.

(** names a metric column cannot have next to the columns of the notebook *)
Definition taken_names : list string := ["week_id"; "week_start"; "item_id"; "time_period"; "treatment"].

(** the dates are [n] times [k] days apart, without a gap *)
Definition regular_dates (k n : Z) (dates : list Z) : Prop :=
  exists a, forall x, In x dates <-> exists i, 0 <= i < n /\ x = a + i * (k * day).

(** raw rows with one value each, which may be missing but is not negative or infinite *)
Definition raw_amounts (raw : list obs) : Prop :=
  forall r, In r raw -> exists v, o_vals r = [v] /\ (v = NaN \/ exists x, v = Fin x /\ (0 <= x)%R).
