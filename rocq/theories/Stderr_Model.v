(** C111: the standard errors of the independent test, with rounding. *)
From Coq Require Import ZArith List Bool.
From Flocq Require Import Core BinarySingleNaN.
Require Import Verif.F64 Verif.Table_Model Verif.Vars_Model.

(** [**2] of a numpy float (statistics.py:473-474, 685-686, 695-699).  Simplified: the square is rounded
    to the nearest double; numpy may leave it to [pow] of the C library, whose last bit can differ. *)
Definition fsq (x : f64) : f64 := fmul x x.

(** statistics.py:684-687 *)
Definition pooled_variance (sd_1 sd_2 : f64) (n_1 n_2 : Z) : f64 :=
  fdiv (fadd (fmul (of_Z (n_1 - 1)) (fsq sd_1)) (fmul (of_Z (n_2 - 1)) (fsq sd_2))) (of_Z (n_1 + n_2 - 2)).

(** statistics.py:688-692, 694-699: the squared standard errors of the two means; the sample sizes are
    Python integers, see statistics.py:1062-1063, 1072-1073 *)
Definition squared_errors (sd_1 sd_2 : f64) (n_1 n_2 : Z) (equal_var : bool) : f64 * f64 :=
  if equal_var then
    (fdiv (pooled_variance sd_1 sd_2 n_1 n_2) (of_Z n_1), fdiv (pooled_variance sd_1 sd_2 n_1 n_2) (of_Z n_2))
  else (fdiv (fsq sd_1) (of_Z n_1), fdiv (fsq sd_2) (of_Z n_2)).

(** statistics.py:658-701 *)
Definition rounded_standard_errors (sd_1 sd_2 : f64) (n_1 n_2 : Z) (equal_var : bool) : f64 * f64 * f64 :=
  let (a, b) := squared_errors sd_1 sd_2 n_1 n_2 equal_var in
  (fsqrt (fadd a b), fsqrt a, fsqrt b).

(** statistics.py:473-478 *)
Definition interval_standard_error (se_1 se_2 corr : f64) : f64 :=
  let var_12 := fmul (fmul se_1 se_2) corr in
  fsqrt (fsub (fadd (fsq se_1) (fsq se_2)) (fmul (of_Z 2) var_12)).
