(** Model of /repo/feedx/plotting.py:31-71 and 212-313: the histograms of a validated design.

    Colours, line styles, transparency and the layout of the figure are not modelled.  Axes.hist is
    modelled as in matplotlib with numpy's histogram and bins="auto": missing values are left out, an
    infinite value or a column of missing values only is a ValueError (the range is not finite), and
    the heights of the bars are the numbers of values between the edges, the last bar including its
    right edge.  The edges numpy chooses are an arbitrary function of the values; that so many bins
    may be chosen that the memory does not suffice is not modelled. *)
From Coq Require Import ZArith Reals List String Bool.
From Flocq Require Import Core.
Require Import Verif.Base Verif.Num Verif.Stats_Model Verif.Simulation_Model.
Import ListNotations.
Open Scope string_scope.
Open Scope list_scope.

(** what is drawn on an axis, in the order of drawing: bars with the values they count, their edges
    and an optional label, and vertical lines *)
Inductive mark := Bars (values edges : list R) (heights : list nat) (label : option string) | Line (x : num).
(** an axis: its marks, title and the labels of its x and y axis *)
Record axis : Type := mkAx { ax_marks : list mark; ax_title : string; ax_x : string; ax_y : string }.
Definition empty_axis : axis := mkAx [] "" "" "".

Section Deepdive.
Context (edges_of : list R -> list R).

(** numpy.histogram: the last bin is closed, the others are open on the right *)
Fixpoint bar_heights (edges : list R) (values : list R) : list nat :=
  match edges with
  | a :: ((b :: rest) as tail) =>
      let inside v := andb (Rle_bool a v) (match rest with [] => Rle_bool v b | _ => Rlt_bool v b end) in
      List.length (filter inside values) :: bar_heights tail values
  | _ => []
  end.

Definition is_infinite (x : num) : bool := match x with PInf | NInf => true | _ => false end.
Definition numbers (l : list num) : list R := flat_map (fun x => match x with Fin r => [r] | _ => [] end) l.
(** Axes.hist(values, bins="auto") *)
Definition hist (values : list num) (label : option string) : result mark :=
  if existsb is_infinite values then Err (ValueError "supplied range is not finite")
  else
    match numbers values, values with
    | [], _ :: _ => Err (ValueError "autodetected range of [nan, nan] is not finite")
    | v, _ => Ok (Bars v (edges_of v) (bar_heights (edges_of v) v) label)
    end.

(** plotting.py:31-71, [_make_density_plot]; data[column] of a frame made of no record is a KeyError.
    Both callers pass labels for both axes, and an empty string would be replaced like None. *)
Definition or_else (x : option string) (d : string) : string :=
  match x with Some s => if String.eqb s "" then d else s | None => d end.
Definition make_density_plot (data : list tresult) (column : string) (field : tresult -> num) (ax : axis)
  (x_label y_label label : option string) : result axis :=
  let x_label := or_else x_label column in
  let y_label := or_else y_label "Number of Items" in
  let! values := column_of field data in
  let! bars := hist values label in
  Ok (mkAx (ax_marks ax ++ [bars]) ("Density Plot of " ++ x_label ++ " Distribution") x_label y_label).
(** Axes.axvline, Axes.set_title *)
Definition axvline (x : num) (ax : axis) : axis := mkAx (ax_marks ax ++ [Line x]) (ax_title ax) (ax_x ax) (ax_y ax).
Definition set_title (s : string) (ax : axis) : axis := mkAx (ax_marks ax) s (ax_x ax) (ax_y ax).

Definition newline : string := String (Ascii.ascii_of_nat 10) "".

(** plotting.py:212-313, [plot_deep_dive]: the three axes.  The A/B results and the effect are set
    whenever the A/A results are (Sim_State_Props.v); axvline(x=None) would be a TypeError. *)
Definition plot_deep_dive (s : sim) : result (list axis) :=
  let! rate := simulated_false_positive_rate s in
  match rate, sm_aa s with
  | Some _, Some aa =>
      let! ax0 := make_density_plot aa "absolute_difference" r_abs empty_axis (Some "Effect Size") (Some "Density")
                    (Some "A/A absolute difference") in
      let ax0 := axvline (Fin 0) ax0 in
      let! ab := ab_results s in
      let! ax0 := make_density_plot ab "absolute_difference" r_abs ax0 (Some "Effect Size") (Some "Density")
                    (Some "A/B absolute difference") in
      let! mde := match sm_mde s with Some e => Ok e | None => Err (TypeError "must be real number, not NoneType") end in
      let ax0 := axvline mde ax0 in
      let ax0 := set_title ("Check that effect estimates (shaded areas)" ++ newline ++ "are centered on the true effects (dashed lines)") ax0 in
      let! ax1 := make_density_plot aa "p_value" r_p_value empty_axis (Some "P-Values (A/A)") (Some "Count") None in
      let ax1 := set_title ("Check that the p-values from the A/A test" ++ newline ++ "are uniformly distributed between 0 and 1.") ax1 in
      let! ax2 := make_density_plot ab "p_value" r_p_value empty_axis (Some "P-Values (A/B)") (Some "Count") None in
      let ax2 := set_title ("Check that the p-values from the A/B test" ++ newline ++ "are skewed towards 0.") ax2 in
      Ok [ax0; ax1; ax2]
  | _, _ => Err (ValueError "Cannot plot deep dive because the validation has not been run.")
  end.
End Deepdive.
