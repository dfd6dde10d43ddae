(** Specification vocabulary for the validation checks. *)
From Coq Require Import ZArith Reals List String Bool.
Require Import Verif.Num Verif.Frame Verif.Design_Model Verif.Rows_Spec Verif.Checks_Model.
Import ListNotations.
Open Scope string_scope.
Open Scope Z_scope.

(** items of the rows with date [d], in order and with repetitions *)
Definition items_on (d : Z) (rows : list (Z * string)) : list string :=
  map snd (filter (fun r => fst r =? d) rows).

(** no item twice within a date, and the same number of rows on every date *)
Definition uniform (rows : list (Z * string)) : Prop :=
  exists n, forall d, In d (map fst rows) -> NoDup (items_on d rows) /\ List.length (items_on d rows) = n.

(** what the check's name promises: every item exactly once for every date *)
Definition exactly_once (rows : list (Z * string)) : Prop :=
  forall d i, In d (map fst rows) -> In i (map snd rows) ->
    count_occ string_dec (items_on d rows) i = 1%nat.

(** the dates are a + 0*k, a + 1*k, ..., a + (n-1)*k days *)
Definition progression (k : Z) (dates : list Z) : Prop :=
  exists a n, 0 < n /\ forall x, In x dates <-> exists i, 0 <= i < n /\ x = a + i * (k * day_ns).

Definition missing (c : cell) : Prop := c = CNull \/ c = CNum NaN.

(** consecutive elements [x], [y] of a list *)
Definition adjacent {A} (l : list A) (x y : A) : Prop := exists u v, l = (u ++ x :: y :: v)%list.

(** the sorting routine orders by date, keeping the rows *)
Definition orders_by_date (s : list (Z * Z) -> list (Z * Z)) : Prop :=
  forall l, Permutation.Permutation (s l) l /\ Sorting.Sorted.StronglySorted (fun a b => snd a <= snd b) (s l).

(** the ids that occur form an interval and do not decrease over time *)
Definition ids_consecutive (rows : list (Z * Z)) : Prop :=
  (forall a b w, In a rows -> In b rows -> fst a <= w <= fst b -> exists r, In r rows /\ fst r = w) /\
  (forall a b, In a rows -> In b rows -> snd a < snd b -> fst a <= fst b).

Definition one_week_per_date (rows : list (Z * Z)) : Prop :=
  forall a b, In a rows -> In b rows -> snd a = snd b -> fst a = fst b.

Definition is_min (m : Z) (l : list Z) : Prop := In m l /\ forall x, In x l -> m <= x.
Definition is_max (m : Z) (l : list Z) : Prop := In m l /\ forall x, In x l -> x <= m.

(** conditions on metric values *)
Definition finite_value (x : num) : Prop := exists r, x = Fin r.
Definition not_negative (x : num) : Prop := x <> NInf /\ forall r, x = Fin r -> (0 <= r)%R.

(** conditions on arms; rows are (item, arm) *)
Definition single_arm (rows : list (string * Z)) : Prop :=
  forall i a b, In (i, a) rows -> In (i, b) rows -> a = b.
Definition arms_from_salt (s : string) (rows : list (string * Z)) : Prop :=
  forall i a, In (i, a) rows -> a = coinflip_call (mkCoinflipRec s) i.

(** the data reaches back to the first pretest day and, if concluded, to the first day of the
    last runtime week *)
Definition dates_cover (dates : list Z) (d : design) (start : Z) (concluded : bool) : Prop :=
  (exists x, In x dates /\ x <= start - 7 * day_ns * pretest (par d)) /\
  (concluded = true -> exists x, In x dates /\ start + 7 * day_ns * (runtime (par d) - 1) <= x).

(** the checks of the historical data, as documented, in the order of the code *)
Definition historical_conditions (v : vdata) (metric : string) : list (string * Prop) :=
  [("no_nulls", forall col c, In col (v_cells v) -> In c col -> ~ missing c);
   ("no_duplicate_items_per_date", uniform (combine (v_dates v) (v_items v)));
   ("dates_are_daily_or_weekly", evenly_spaced 7 (v_dates v) \/ evenly_spaced 1 (v_dates v));
   ("week_ids_are_consecutive_integers", ids_consecutive (combine (v_weeks v) (v_dates v)));
   ("all_metrics_are_finite", forall vals x, v_col v metric = Some vals -> In x vals -> finite_value x);
   ("all_metrics_are_non_negative", forall vals x, v_col v metric = Some vals -> In x vals -> not_negative x)].

(** the checks of the experiment data; [srm_ok] says that the sample ratio test does not reject *)
Definition experiment_conditions (srm_ok : Prop) (v : vdata) (d : design) (s : string) (metrics : list string)
    (start : Z) (concluded : bool) (negative_ok : list string) : list (string * Prop) :=
  [("primary_metric_in_metrics", In (metric (par d)) metrics);
   ("no_nulls", forall col c, In col (v_cells v) -> In c col -> ~ missing c);
   ("no_duplicate_items_per_date", uniform (combine (v_dates v) (v_items v)));
   ("dates_are_daily_or_weekly", evenly_spaced 7 (v_dates v) \/ evenly_spaced 1 (v_dates v));
   ("week_ids_are_consecutive_integers", ids_consecutive (combine (v_weeks v) (v_dates v)));
   ("all_metrics_are_finite",
      forall m vals x, In m metrics -> v_col v m = Some vals -> In x vals -> finite_value x);
   ("all_metrics_are_non_negative",
      forall m vals x, In m metrics -> ~ In m negative_ok -> v_col v m = Some vals -> In x vals -> not_negative x);
   ("number_of_items_matches_design",
      exists n, has_card (fun i => In i (v_items v)) n /\ Z.of_nat n = n_pre d);
   ("experiment_dates_match_design", dates_cover (v_dates v) d start concluded);
   ("treatment_assignment_is_unique", single_arm (combine (v_items v) (v_arms v)));
   ("coinflip_salt_validation", arms_from_salt s (combine (v_items v) (v_arms v)));
   ("no_sample_ratio_mismatch", srm_ok)].
