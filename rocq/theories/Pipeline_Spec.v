(** Specification vocabulary for the preparation pipelines. *)
From Coq Require Import ZArith Reals List String Bool.
From Flocq Require Import Core BinarySingleNaN.
Require Import Verif.Num Verif.F64 Verif.Rows_Model Verif.Rows_Spec.
Import ListNotations.
Open Scope Z_scope.

(** item / date / pair observed in the raw data *)
Definition seen_item (rows : list obs) (i : string) : Prop := exists r, In r rows /\ o_item r = i.
Definition seen_date (rows : list obs) (d : Z) : Prop := exists r, In r rows /\ o_date r = d.

Definition earliest (rows : list obs) (first : Z) : Prop :=
  seen_date rows first /\ forall r, In r rows -> first <= o_date r.

(** the metric of item [i] summed over the days of week [w] (missing values count as 0) *)
Definition weekly_total (rows : list obs) (first : Z) (i : string) (w : Z) : num :=
  total (fun r => String.eqb (o_item r) i &&
                  ((first + w * week_ns <=? o_date r) && (o_date r <? first + (w + 1) * week_ns)))
    (fun r => nth 0 (o_vals r) NaN) rows.

(** all seven days of week [w] occur in the data (for whatever item) *)
Definition complete_week (rows : list obs) (first w : Z) : Prop :=
  has_card (fun d => seen_date rows d /\ in_week first d w) 7.

(** [vals] are the values of a raw row for (i, d), missing values replaced by 0, or all zero if
    there is no such row *)
Definition value_or_zero (k : nat) (rows : list obs) (i : string) (d : Z) (vals : list num) : Prop :=
  (exists r, In r rows /\ o_item r = i /\ o_date r = d /\
     vals = map (fun v => match v with NaN => Fin 0 | _ => v end) (o_vals r)) \/
  ((forall r, In r rows -> o_item r = i -> o_date r = d -> False) /\ vals = repeat (Fin 0) k).

(** the items kept by sampling: all of them for the fraction 1, otherwise as many as the
    rounded fraction *)
Definition sample_of (frac : f64) (rows : list obs) (kept : list string) : Prop :=
  NoDup kept /\ (forall i, In i kept -> seen_item rows i) /\
  (B2R frac = 1%R -> forall i, seen_item rows i -> In i kept) /\
  (forall n, has_card (seen_item rows) n ->
     Z.of_nat (List.length kept) = ZnearestE (rnd (B2R frac * INR n))).
