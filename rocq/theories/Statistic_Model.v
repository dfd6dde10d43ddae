(** C111: the paired standard error and the test statistic, with rounding. *)
From Coq Require Import ZArith.
From Flocq Require Import Core BinarySingleNaN.
Require Import Verif.F64 Verif.Table_Model Verif.Vars_Model.

(** statistics.py:637-646, with the number of kept values as sample size (statistics.py:888-890) *)
Definition rounded_paired_error (sd : f64) (n : Z) : f64 := fdiv sd (fsqrt (of_Z n)).

(** statistics.py:1091 and 415: the difference of the means over its standard error *)
Definition rounded_statistic (mean_1 mean_2 se : f64) : f64 := fdiv (fsub mean_1 mean_2) se.
