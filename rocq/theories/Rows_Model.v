(** Model of /repo/feedx/data_preparation.py:497-719: filling, downsampling, week ids and
    weekly grouping.

    Representation.  A data set is the list of its rows; a row carries the item id, the date
    and the metric values (one [num] per metric column, a missing value being NaN).  Item ids
    are strings and dates are nanoseconds since an epoch, as produced by
    standardize_column_names_and_types (numpy datetime64[ns]); missing ids / dates (None, NaT)
    and non-numeric metric columns are outside the model, and so are the dtype conversions
    "astype(original_dtype)" (integer columns behave like their real values). *)
From Coq Require Import ZArith Reals List String Bool.
From Flocq Require Import Core BinarySingleNaN.
Require Import Verif.Base Verif.Num Verif.F64 Verif.ListLib.
Import ListNotations.
Open Scope string_scope.
Open Scope Z_scope.

Record obs := mkObs { o_item : string; o_date : Z; o_vals : list num }.

(** one day in nanoseconds *)
Definition day : Z := 86400 * 1000000000.

Definition items_of (rows : list obs) : list string := dedup String.eqb (map o_item rows).
Definition dates_of (rows : list obs) : list Z := dedup Z.eqb (map o_date rows).

(** Series.fillna(0) *)
Definition nan0 (x : num) : num := if nis_nan x then Fin 0 else x.
Definition fill0 (r : obs) : obs := mkObs (o_item r) (o_date r) (map nan0 (o_vals r)).

Definition okey (r : obs) : string * Z := (o_item r, o_date r).
Definition okeqb := paireqb String.eqb Z.eqb.

(** one left row of "left.merge(data, on=[item, date], how='left')": all matching right rows
    in order, or one row of missing values; [k] is the number of metric columns *)
Definition left_merge_one (k : nat) (rows : list obs) (c : string * Z) : list obs :=
  match filter (fun r => okeqb (okey r) c) rows with
  | [] => [mkObs (fst c) (snd c) (repeat NaN k)]
  | l => l
  end.

(** data_preparation.py:497-548 [fill_missing_rows_with_zeros], after the column check *)
Definition fill_rows (k : nat) (rows : list obs) : list obs :=
  let all_items := items_of rows in                          (* line 530 *)
  let all_dates := dates_of rows in                          (* line 531 *)
  let combos := list_prod all_items all_dates in             (* line 532, cross merge *)
  let output := flat_map (left_merge_one k rows) combos in   (* lines 533-535 *)
  map fill0 output.                                          (* lines 537-546 *)

Definition in_columns (c : string) (cols : list string) : bool := existsb (String.eqb c) cols.

(** data_preparation.py:497-548 with the column check of lines 522-528; [cols] are the
    columns of the data, [k] the number of them that are not the two key columns *)
Definition fill_missing_rows_with_zeros (cols : list string) (item_col date_col : string)
    (k : nat) (rows : list obs) : result (list obs) :=
  let! _ := raise_if (negb (andb (in_columns item_col cols) (in_columns date_col cols)))
              (ValueError "missing required columns") in
  Ok (fill_rows k rows).

(** Series.sample(frac): the number of rows drawn is round(frac * n) (Python rounds half to
    even; pandas generic.py), the product being a binary64 product *)
Definition sample_size (frac : f64) (n : nat) : result Z :=
  let x := fmul frac (of_Z (Z.of_nat n)) in
  if is_finite x then Ok (ZnearestE (B2R x)) else Err (ValueError "cannot convert NaN or inf to int").

(** data_preparation.py:551-605 [downsample_items].  [draw] is the random generator: given the
    population and the size it returns the sampled items. *)
Definition downsample_items {R} (item : R -> string) (cols : list string) (item_col : string)
    (frac : f64) (draw : list string -> Z -> list string) (rows : list R) : result (list R) :=
  let! _ := raise_if (orb (fleb frac f0) (fgtb frac f1)) (ValueError "fraction out of range") in
  let! _ := raise_if (negb (in_columns item_col cols)) (ValueError "no such column") in
  if feqb frac f1 then Ok rows
  else
    let population := dedup String.eqb (map item rows) in
    let! n := sample_size frac (List.length population) in
    let sampled := draw population n in
    Ok (filter (fun r => existsb (String.eqb (item r)) sampled) rows).

(* ------------------------------------------------------------------ *)
(** a row with week id, week start and (already weekly) extra group values *)
Record wrow := mkW { w_obs : obs; w_week : Z; w_start : Z; w_extra : list string }.

(** data_preparation.py:635-636, one row: .dt.days floors to whole days, // floors *)
Definition week_id (start date : Z) : Z := ((date - start) / day) / 7.
(** data_preparation.py:637-640, one row *)
Definition week_start (start date : Z) : Z := start + week_id start date * 7 * day.

Definition zmin_date (rows : list obs) : option Z :=
  match rows with
  | [] => None
  | r :: rs => Some (fold_left Z.min (map o_date rs) (o_date r))
  end.

(** data_preparation.py:608-641 [add_week_id_and_week_start]; without rows the minimum is NaT
    and nothing has to be labelled.  The extra columns are empty here. *)
Definition add_weeks (start : option Z) (rows : list obs) : list wrow :=
  match (match start with Some s => Some s | None => zmin_date rows end) with
  | None => []
  | Some s => map (fun r => mkW r (week_id s (o_date r)) (week_start s (o_date r)) []) rows
  end.

(** output row of the weekly grouping (the date column is gone) *)
Record grow := mkG { g_week : Z; g_start : Z; g_item : string; g_extra : list string; g_vals : list num }.

Definition gkey_t : Type := (Z * Z) * (string * list string).
Definition wkey (r : wrow) : gkey_t := ((w_week r, w_start r), (o_item (w_obs r), w_extra r)).
Definition gkeqb : gkey_t -> gkey_t -> bool :=
  paireqb (paireqb Z.eqb Z.eqb) (paireqb String.eqb leqb).
Definition gkleb : gkey_t -> gkey_t -> bool :=
  lexb (paireqb Z.eqb Z.eqb) (lexb Z.eqb Z.leb Z.leb) (lexb String.eqb sleb lleb).

Lemma ord_gkey : ord gkeqb gkleb.
Proof.
  apply ord_pair; apply ord_pair; auto using ord_Z, ord_string, ord_strings.
Qed.

(** data_preparation.py:677-680: day gaps between consecutive distinct dates *)
Fixpoint gaps (l : list Z) : list Z :=
  match l with
  | a :: ((b :: _) as r) => ((b - a) / day) :: gaps r
  | _ => []
  end.
Definition frequency (dates : list Z) : list Z := gaps (zsort_uniq dates).

(** pandas groupby "sum" of column j: missing values are skipped *)
Definition col_sum (j : nat) (rows : list obs) : num :=
  nsum (map (fun r => nan0 (nth j (o_vals r) NaN)) rows).
Definition sums (k : nat) (rows : list obs) : list num := map (fun j => col_sum j rows) (seq 0 k).

Definition distinct_dates (rows : list wrow) : nat :=
  List.length (dedup Z.eqb (map (fun r => o_date (w_obs r)) rows)).

(** data_preparation.py:697-710: aggregate, keep the groups with seven days *)
Definition group_weeks (k : nat) (rows : list wrow) : list grow :=
  map (fun kg => let '(((w, s), (i, e)), rs) := kg in mkG w s i e (sums k (map w_obs rs)))
    (filter (fun kg => Nat.eqb (distinct_dates (snd kg)) 7) (groupby gkeqb gkleb wkey rows)).

Definition drop_date (r : wrow) : grow :=
  mkG (w_week r) (w_start r) (o_item (w_obs r)) (w_extra r) (o_vals (w_obs r)).

(** data_preparation.py:644-719 [group_data_to_complete_weeks] *)
Definition group_data_to_complete_weeks (k : nat) (rows : list wrow) : result (list grow) :=
  let freq := frequency (map (fun r => o_date (w_obs r)) rows) in
  if forallb (Z.eqb 1) freq then Ok (group_weeks k rows)
  else if forallb (Z.eqb 7) freq then Ok (map drop_date rows)
  else Err (ValueError "not daily or weekly").
