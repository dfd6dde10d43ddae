(** Model of /repo/feedx/data_preparation.py:1627-1800: outlier trimming and treatment
    assignment.

    Representation.  trim_outliers sees a data set as the list of its rows and the value of the
    order_by column of each row; the index labels of the rows are distinct (they are in every
    call in the package), so a row is identified by its position.  The historical data used for
    the assignment is the list of its rows: item id, week id and primary metric. *)
From Coq Require Import ZArith NArith Reals List String Bool.
Require Import Verif.Base Verif.Num Verif.F64 Verif.ListLib Verif.Design_Model Verif.Rows_Model
  Verif.Checks_Model.
Import ListNotations.
Open Scope string_scope.
Open Scope Z_scope.

Fixpoint before_in (i : nat) (l : list nat) : list nat :=
  match l with
  | [] => []
  | j :: r => if Nat.eqb i j then [] else j :: before_in i r
  end.

(** Series.rank(method="first", ascending=False) of a row, the series being in the order
    [order]: one more than the number of rows with a greater value plus the number of earlier
    rows with the same value.  Missing values have no rank. *)
Definition rank_first (value : nat -> num) (order : list nat) (i : nat) : option Z :=
  if nis_nan (value i) then None
  else Some (1 + Z.of_nat (List.length (filter (fun j => nltb (value i) (value j)) order))
               + Z.of_nat (List.length (filter (fun j => neqb (value i) (value j)) (before_in i order)))).

(** data.loc[mask] of a mask given by position *)
Definition loc_rows {A} (mask : nat -> bool) (rows : list A) : list A :=
  map snd (filter (fun p => mask (fst p)) (combine (seq 0 (List.length rows)) rows)).

(** data_preparation.py:1627-1687; [value] reads the order_by column and [shuffle] is the random
    generator (the positions in the order of data.sample(frac=1.0)) *)
Definition trim_outliers {A} (value : A -> num) (top_pct bottom_pct : f64) (shuffle : nat -> list nat)
    (data : list A) : result (list A) :=
  let! _ := raise_if (fltb top_pct f0) (ValueError "trim_percentile_top must be >= 0.0.") in
  let! _ := raise_if (fltb bottom_pct f0) (ValueError "trim_percentile_bottom must be >= 0.0.") in
  let! _ := raise_if (fgeb (fadd top_pct bottom_pct) f1)
              (ValueError "trim_percentile_top + trim_percentile_bottom must be < 1.0") in
  let n_samples := Z.of_nat (List.length data) in
  let! n_trim_top := floor_mul' n_samples top_pct in
  let! n_trim_bottom := floor_mul' n_samples bottom_pct in
  if andb (n_trim_top =? 0) (n_trim_bottom =? 0) then Ok data
  else
    let min_rank := n_trim_top in
    let max_rank := n_samples - n_trim_bottom in
    let vals := map value data in
    let rank := rank_first (fun i => nth i vals NaN) (shuffle (List.length data)) in
    Ok (loc_rows (fun i => match rank i with
                           | Some r => andb (min_rank <? r) (r <=? max_rank)
                           | None => false
                           end) data).

(* ------------------------------------------------------------------ *)
(** one row of the historical data *)
Record hrow := mkH { h_item : string; h_week : Z; h_metric : num }.

(** groupby(...)[metric].sum(): missing values are skipped *)
Definition hsum (rows : list hrow) : num := nsum (map (fun r => nan0 (h_metric r)) rows).

(** lines 1736-1739 *)
Definition has_pre_trimming (p : params) : bool := orb (fgtb (top p) f0) (fgtb (bottom p) f0).

(** lines 1768-1779: the items with their totals over the last pretest_weeks weeks *)
Definition pretest_items (d : design) (rows : list hrow) : list (string * num) :=
  match list_max (map h_week rows) with
  | None => []
  | Some max_week_id =>
      let start_week_id := max_week_id - pretest (par d) in
      let pretest_data := filter (fun r => start_week_id <? h_week r) rows in
      map (fun g => (fst g, hsum (snd g))) (groupby String.eqb sleb h_item pretest_data)
  end.

(** lines 1767-1791 *)
Definition experiment_items (shuffle : nat -> list nat) (d : design) (rows : list hrow)
    : result (list string) :=
  if has_pre_trimming (par d) then
    let! kept := trim_outliers snd (top (par d)) (bottom (par d)) shuffle (pretest_items d rows) in
    Ok (map fst kept)
  else Ok (dedup String.eqb (map h_item rows)).

(** data_preparation.py:1690-1800.  The salt of the design may be set by the call, so the
    function returns the design after the call together with its result.  [cols] are the columns
    of the historical data, [bytes] what the random salt generator returned, [binomtest] scipy's
    test.  The printed messages are not modelled. *)
Definition perform_treatment_assignment (binomtest : Z -> Z -> result num) (cols : list string)
    (item_col : string) (week_col : option string) (treatment_col : string)
    (shuffle : nat -> list nat) (bytes : list N) (d : design) (rows : list hrow)
    : design * result (list (string * Z)) :=
  let required := match week_col with
                  | Some w => if has_pre_trimming (par d) then [item_col; w] else [item_col]
                  | None => [item_col]
                  end in
  let checks :=                                                       (* lines 1741-1758 *)
    let! _ := raise_if (andb (has_pre_trimming (par d)) (match week_col with None => true | _ => false end))
                (ValueError "Must specify week_id_column if design has pre-trimming.") in
    let! _ := raise_if (negb (forallb (fun c => in_columns c cols) required))
                (ValueError "missing required columns") in
    raise_if (String.eqb item_col treatment_col) (ValueError "treatment column is the item column") in
  match checks with
  | Err e => (d, Err e)
  | Ok _ =>
      let salted :=                                                   (* lines 1760-1766 *)
        match salt (par d) with
        | Some s => if String.eqb s "" then let! c := coinflip_with_random_salt bytes in
                                            Ok (set_salt d (Some (cf_salt c)), c)
                    else let! c := mk_coinflip s in Ok (d, c)
        | None => let! c := coinflip_with_random_salt bytes in Ok (set_salt d (Some (cf_salt c)), c)
        end in
      match salted with
      | Err e => (d, Err e)
      | Ok (d1, c) =>
          (d1,
           let! _ := raise_if (andb (has_pre_trimming (par d)) (negb (in_columns (metric (par d)) cols)))
                       (KeyError (metric (par d))) in                 (* line 1775 *)
           let! items := experiment_items shuffle d1 rows in
           let assigned := map (fun i => (i, coinflip_call c i)) items in   (* lines 1788-1790 *)
           let! _ := run_check "no_sample_ratio_mismatch" [] (check_srm binomtest srm_threshold assigned) in
           Ok assigned)
      end
  end.
