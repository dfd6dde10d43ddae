(** Model of /repo/feedx/statistics.py:258-335: apply_cuped_adjustment. *)
From Coq Require Import ZArith Reals List String Bool.
From Flocq Require Import Core BinarySingleNaN.
Require Import Verif.Base Verif.Num Verif.F64 Verif.ListLib Verif.Trimmed_Model.
Import ListNotations.
Open Scope string_scope.
Open Scope R_scope.

(** np.mean of a one-dimensional array (NaN when empty) *)
Definition nmean (l : list num) : num := ndiv (nsum l) (Fin (INR (List.length l))).

(** np.cov(np.stack([a, b])), entry (a, b): sum of products of deviations times 1 / (n - 1); numpy
    replaces n - 1 <= 0 by 0.0 after a warning *)
Definition np_cov (a b : list num) : num :=
  let fact := Fin (IZR (Z.max 0 (Z.of_nat (List.length a) - 1))) in
  nmul (ndot (map (fun x => nsub x (nmean a)) a) (map (fun x => nsub x (nmean b)) b)) (ndiv (Fin 1) fact).

Definition zip_with {A B C} (f : A -> B -> C) (l : list A) (m : list B) : list C :=
  map (fun p => f (fst p) (snd p)) (combine l m).

Section Cuped.
Context (argsort : list num -> list nat).

Definition mentry (M : list (list num)) (i j : nat) : num := nth j (nth i M []) NaN.

(** statistics.py:258-335 *)
Definition apply_cuped_adjustment (metric covariate : list num) (quantile : f64) : result (list num) :=
  let! _ := raise_if (negb (Nat.eqb (List.length metric) (List.length covariate)))     (* np.stack *)
              (ValueError "all input arrays must have the same shape") in
  let theta := ndiv (np_cov metric covariate) (np_cov covariate covariate) in           (* lines 301-305 *)
  let mu := nmean covariate in
  let cuped := zip_with (fun m c => nsub m (nmul theta (nsub c mu))) metric covariate in (* line 306 *)
  let! trimmed := mk_trimmed argsort [cuped; metric; covariate] quantile in             (* lines 308-311 *)
  if Nat.eqb (t_k trimmed) 0 then Ok cuped                                              (* lines 312-313 *)
  else
    let cov := t_cov argsort trimmed 0 in
    let trimmed_theta := ndiv (mentry cov 1 2) (mentry cov 2 2) in                      (* lines 315-318 *)
    let no_offset := zip_with (fun m c => nsub m (nmul trimmed_theta c)) metric covariate in
    let! trimmed_metric := mk_trimmed argsort [metric] quantile in
    let! trimmed_no_offset := mk_trimmed argsort [no_offset] quantile in
    let mean_metric := hd NaN (t_mean argsort trimmed_metric) in
    let mean_no_offset := hd NaN (t_mean argsort trimmed_no_offset) in
    let cuped' := map (fun x => nsub (nadd x mean_metric) mean_no_offset) no_offset in  (* lines 326-330 *)
    if nltb (hd NaN (t_var argsort trimmed_no_offset 0)) (hd NaN (t_var argsort trimmed_metric 0))
    then Ok cuped'
    else Ok metric.
End Cuped.
