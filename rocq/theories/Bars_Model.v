(** Model of feedx/plotting.py:508-582 (error bars) and 585-737 (plot_effects): which bars are drawn, and the errors.
    The arrays are extended reals; the four arrays of one call have the same length, so they are one list here.
    matplotlib's Axes.errorbar is modelled as: ValueError when a length is negative ("'xerr' must not contain negative values"),
    otherwise the bars are drawn. Positions on the y axis, styles, ticks and legends are not modelled; metric names are lowered
    for ASCII letters only. *)
From Coq Require Import ZArith Reals List String Ascii Bool.
Require Import Verif.Base Verif.Num Verif.Design_Model.
Import ListNotations.
Open Scope string_scope.

(** an estimate with its interval *)
Record interval := mkI { i_value : num; i_lb : num; i_ub : num }.
(** a drawn bar: its point and the lengths to the left and to the right *)
Record bar := mkBar { b_x : num; b_left : num; b_right : num }.

(** Axes.errorbar *)
Definition errorbar (bars : list bar) : result (list bar) :=
  if existsb (fun b => orb (nltb (b_left b) (Fin 0)) (nltb (b_right b) (Fin 0))) bars
  then Err (ValueError "'xerr' must not contain negative values") else Ok bars.

Definition nmin2 (x y : num) : num := if nleb x y then x else y.
Definition nmax2 (x y : num) : num := if nleb x y then y else x.
(** np.min, np.max: of an empty array an error *)
Definition np_min (l : list num) : result num :=
  match l with [] => Err (ValueError "zero-size array to reduction operation minimum which has no identity") | x :: r => Ok (fold_left nmin2 r x) end.
Definition np_max (l : list num) : result num :=
  match l with [] => Err (ValueError "zero-size array to reduction operation maximum which has no identity") | x :: r => Ok (fold_left nmax2 r x) end.

(** lines 542-543: an unknown estimate is drawn at 0 *)
Definition point (i : interval) : num := if nis_fin (i_value i) then i_value i else Fin 0.

(** lines 508-582; the three groups of bars *)
Definition error_bars (l : list interval) : result (list bar * list bar * list bar) :=
  match l with
  | [] => Ok ([], [], [])
  | _ =>
    let bars := map (fun i => mkBar (point i)
      (if nis_fin (i_lb i) then nsub (point i) (i_lb i) else Fin 0)
      (if nis_fin (i_ub i) then nsub (i_ub i) (point i) else Fin 0)) l in
    let! lb := np_min (filter nis_fin (map i_lb l)) in
    let! ub := np_max (filter nis_fin (map i_ub l)) in
    let! main := errorbar bars in
    (* xerr is one array: the same length on both sides, of which the limits show one *)
    let! to_left := errorbar (map (fun i => let e := nsub (point i) lb in mkBar (point i) e e) (filter (fun i => negb (nis_fin (i_lb i))) l)) in
    let! to_right := errorbar (map (fun i => let e := nsub ub (point i) in mkBar (point i) e e) (filter (fun i => negb (nis_fin (i_ub i))) l)) in
    Ok (main, to_left, to_right)
  end.

(** str.lower, ASCII letters *)
Definition lower_char (c : ascii) : ascii :=
  let n := nat_of_ascii c in if andb (65 <=? n)%nat (n <=? 90)%nat then ascii_of_nat (n + 32) else c.
Fixpoint lower (s : string) : string := match s with "" => "" | String c r => String (lower_char c) (lower r) end.

(** a row of the results table *)
Record effect := mkE { e_metric : string; e_interval : interval; e_significant : bool }.
Definition drawing : Type := list bar * list bar * list bar.

(** lines 585-737: the bars of the primary metric, of the significant and of the other metrics *)
Definition plot_effects (data : list effect) (primary_metric : string) : result (drawing * drawing * drawing) :=
  let is_primary e := String.eqb (lower (e_metric e)) (lower primary_metric) in
  match filter is_primary data with
  | [p] =>
    let others := filter (fun e => negb (is_primary e)) data in
    let! a := error_bars [e_interval p] in
    let! b := error_bars (map e_interval (filter e_significant others)) in
    let! c := error_bars (map e_interval (filter (fun e => negb (e_significant e)) others)) in
    Ok (a, b, c)
  | _ => Err (ValueError ("Primary metric from design " ++ lower primary_metric ++ " missing from data."))
  end.
