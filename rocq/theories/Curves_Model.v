(** Model of the two distribution curves of feedx/plotting.py:72-144: the points that are drawn. Values are extended reals
    (sums of doubles are taken without rounding); axes, labels and colours are not modelled. *)
From Coq Require Import ZArith Reals List Bool.
Require Import Verif.Base Verif.Num Verif.ListLib Verif.Stats_Model.
Import ListNotations.

(** numpy's order: NaN last *)
Definition np_leb (x y : num) : bool := orb (nleb x y) (nis_nan y).
(** np.sort *)
Definition np_sort (l : list num) : list num := isort np_leb l.
(** np.cumsum *)
Fixpoint cumsum_from (acc : num) (l : list num) : list num :=
  match l with [] => [] | x :: r => let s := nadd acc x in s :: cumsum_from s r end.
Definition np_cumsum (l : list num) : list num := match l with [] => [] | x :: r => x :: cumsum_from x r end.

(** plotting.py:93-98: the points (value, fraction) *)
Definition cumulative_points (values : list num) : list (num * num) :=
  let values := np_sort values in
  let n := length values in
  let y_number := map (fun i => nsub (nnat n) (nnat i)) (seq 0 n) in
  let y_percentage := map (fun y => ndiv y (nnat n)) y_number in
  combine values y_percentage.

(** plotting.py:132-136: the points (share of items, share of metric) *)
Definition lorenz_points (values : list num) : list (num * num) :=
  let values := rev (np_sort values) in
  let x_percentage := map (fun i => ndiv (nadd (nnat i) (Fin 1)) (nnat (length values))) (seq 0 (length values)) in
  let y_percentage := map (fun c => ndiv c (nsum values)) (np_cumsum values) in
  combine x_percentage y_percentage.
