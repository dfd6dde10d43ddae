(** Model of /repo/feedx/statistics.py:24-255: TrimmedArray.

    Representation.  An array is the list of its rows (np.atleast_2d turns a one-dimensional
    array into one row); all rows have the same length.  Values are [num]: real numbers,
    infinities and NaN, float rounding ignored.  [argsort] is np.argsort (default, unstable
    sort): a parameter everywhere, see Trimmed_Spec.v for what is assumed about it.  The check of
    the number of dimensions (lines 73-74) is outside the model; the values returned for
    one-dimensional arrays as Python floats are the single elements of the lists below. *)
From Coq Require Import ZArith Reals List String Bool.
From Flocq Require Import Core BinarySingleNaN.
Require Import Verif.Base Verif.Num Verif.F64 Verif.ListLib.
Import ListNotations.
Open Scope string_scope.
Open Scope R_scope.

(** np.isclose(a, b) with the default rtol=1e-05, atol=1e-08 *)
Definition nisclose (a b : num) : bool :=
  match a, b with
  | Fin x, Fin y => Rle_bool (Rabs (x - y)) (1 / 100000000 + 1 / 100000 * Rabs y)
  | PInf, PInf | NInf, NInf => true
  | _, _ => false
  end.

(** statistics.py:24-26 [_any_array_is_constant] *)
Definition any_array_is_constant (rows : list (list num)) : result bool :=
  let! _ := raise_if (existsb (fun r => Nat.eqb (List.length r) 0) rows) (IndexError "index 0 is out of bounds") in
  Ok (existsb (fun r => forallb (fun x => nisclose x (hd NaN r)) r) rows).

(** l[k : -k] for k > 0 *)
Definition slice_inner {A} (k : nat) (l : list A) : list A :=
  firstn (List.length l - k - k) (skipn k l).

(** np.argmin / np.argmax: the first NaN if there is one, else the first best value *)
Fixpoint arg_best (better : num -> num -> bool) (best : num) (bi i : nat) (l : list num) : nat :=
  match l with
  | [] => bi
  | x :: r =>
      if nis_nan best then bi
      else if orb (nis_nan x) (better x best) then arg_best better x i (S i) r
      else arg_best better best bi (S i) r
  end.
Definition argmin (l : list num) : nat :=
  match l with [] => 0%nat | x :: r => arg_best nltb x 0 1 r end.
Definition argmax (l : list num) : nat :=
  match l with [] => 0%nat | x :: r => arg_best (fun a b => nltb b a) x 0 1 r end.

Inductive warning := WConstant | WConstantAfterTrimming.

(** a constructed TrimmedArray: the untrimmed rows, n_trim, and the warning printed by the
    constructor *)
Record tarray := mkT { t_rows : list (list num); t_k : nat; t_warning : option warning }.

(** a[:, idx] *)
Definition take (idx : list nat) (row : list num) : list num := map (fun i => nth i row NaN) idx.

Section Trimmed.
Context (argsort : list num -> list nat).

(** statistics.py:97-99 *)
Definition sample_size (rows : list (list num)) : nat := List.length (hd [] rows).

(** statistics.py:105-114: the kept columns *)
Definition kept_index (rows : list (list num)) (k : nat) : list nat :=
  if Nat.eqb k 0 then seq 0 (sample_size rows)
  else isort Nat.leb (slice_inner k (argsort (hd [] rows))).

(** statistics.py:105-114 [values_trimmed] *)
Definition values_trimmed_of (rows : list (list num)) (k : nat) : list (list num) :=
  map (take (kept_index rows k)) rows.

(** statistics.py:55-91 [__init__] *)
Definition mk_trimmed (rows : list (list num)) (quantile : f64) : result tarray :=
  let! _ := raise_if (orb (fltb quantile f0) (fgeb quantile fhalf))
              (ValueError "Must use 0 <= quantile < 0.5") in
  let! kz := floor_mul quantile (Z.of_nat (sample_size rows)) in           (* lines 101-103 *)
  let k := Z.to_nat kz in
  match rows with
  | [] => Err (IndexError "index 0 is out of bounds for axis 0")
  | _ =>
      let kept := values_trimmed_of rows k in
      let! _ := raise_if (negb (Z.eqb (Z.of_nat (List.length (hd [] kept)))
                                      (Z.of_nat (sample_size rows) - 2 * kz)))
                  (AssertionError "length") in
      let! constant := any_array_is_constant rows in
      if constant then Ok (mkT rows k (Some WConstant))
      else
        let! constant' := any_array_is_constant kept in
        Ok (mkT rows k (if constant' then Some WConstantAfterTrimming else None))
  end.

Section Stats.
Context (t : tarray).

Definition t_size : nat := sample_size (t_rows t).
Definition t_kept : list nat := kept_index (t_rows t) (t_k t).
Definition values_trimmed : list (list num) := values_trimmed_of (t_rows t) (t_k t).
(** statistics.py:130-131 [__len__] *)
Definition t_len : nat := List.length (hd [] values_trimmed).

(** statistics.py:116-122: one entry of min_values / max_values, for the trimmed row [row] *)
Definition min_value (row : list num) : num := nth (argmin (hd [] values_trimmed)) row NaN.
Definition max_value (row : list num) : num := nth (argmax (hd [] values_trimmed)) row NaN.

(** statistics.py:133-152 [mean] *)
Definition t_mean : list num :=
  map (fun row => ndiv (nsum row) (Fin (INR (List.length row)))) values_trimmed.

(** statistics.py:169-172, one row *)
Definition wmean_of (row : list num) : num :=
  ndiv (nadd (nsum row) (nmul (Fin (INR (t_k t))) (nadd (min_value row) (max_value row))))
       (Fin (INR t_size)).

(** statistics.py:154-177 [winsorized_mean] *)
Definition winsorized_mean : list num := map wmean_of values_trimmed.

Definition ndot (a b : list num) : num := nsum (map (fun p => nmul (fst p) (snd p)) (combine a b)).

(** statistics.py:200-208, the entry of two rows *)
Definition cov_of (ddof : Z) (r s : list num) : num :=
  let wr := wmean_of r in
  let ws := wmean_of s in
  let resid_r := map (fun x => nsub x wr) r in
  let resid_s := map (fun x => nsub x ws) s in
  let sum_resid_sq :=
    nadd (ndot resid_r resid_s)
      (nmul (Fin (INR (t_k t)))
        (nadd (nmul (nsub (min_value r) wr) (nsub (min_value s) ws))
              (nmul (nsub (max_value r) wr) (nsub (max_value s) ws)))) in
  ndiv sum_resid_sq (Fin (IZR (Z.of_nat t_len - ddof))).

(** statistics.py:179-213 [cov] *)
Definition t_cov (ddof : Z) : list (list num) :=
  map (fun r => map (cov_of ddof r) values_trimmed) values_trimmed.

(** statistics.py:215-241 [var]: the diagonal *)
Definition t_var (ddof : Z) : list num :=
  map (fun i => nth i (nth i (t_cov ddof) []) NaN) (seq 0 (List.length (t_rows t))).

(** statistics.py:243-255 [std] *)
Definition t_std (ddof : Z) : list num := map nsqrt (t_var ddof).
End Stats.
End Trimmed.
