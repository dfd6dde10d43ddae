(** Model of the formatted table of results, feedx/experiment_analysis.py:851-875 and 908-1052.
    The numbers are the binary64 numbers of the results table, as in Display_Model.v.  Not modelled: the styles of the
    headers and the colours under the mouse (lines 1004-1051); the colours of the rows are in Display_Model.v. *)
From Coq Require Import ZArith List String Ascii Bool.
From Flocq Require Import Core BinarySingleNaN.
Require Import Verif.Base Verif.F64 Verif.Design_Model Verif.Display_Model.
Import ListNotations.
Open Scope string_scope.
Open Scope Z_scope.

Definition fsub (x y : f64) : f64 := Bminus mode_NE x y.

(** *** Python's formats *)
(** the ',' option: the digits of a >= 0 in groups of three; [fuel] bounds the number of groups *)
Fixpoint grouped_by (fuel : nat) (a : Z) : string :=
  match fuel with
  | O => dec a
  | S k => if a <? 1000 then dec a else grouped_by k (a / 1000) ++ "," ++ padded 3 (a mod 1000)
  end.
Definition grouped (a : Z) : string := grouped_by (Z.to_nat (Z.log2 a)) a.
(** the digits of a / 10^d *)
Definition grouped_digits (d : nat) (a : Z) : string :=
  match d with
  | O => grouped a
  | _ => grouped (a / 10 ^ Z.of_nat d) ++ "." ++ padded d (a mod 10 ^ Z.of_nat d)
  end.
Definition plus_or_minus (x : f64) : string := if negative x then "-" else "+".

(** f"{x:+,.df}" *)
Definition signed_grouped (d : nat) (x : f64) : string :=
  plus_or_minus x ++
  match x with
  | B754_nan => "nan"
  | B754_infinity _ => "inf"
  | _ => grouped_digits d (Z.abs (round_times x (10 ^ Z.of_nat d)))
  end.

(** the number of decimal digits of a > 0 *)
Fixpoint digits_by (fuel : nat) (a : Z) : Z :=
  match fuel with O => 1 | S k => if a <? 10 then 1 else 1 + digits_by k (a / 10) end.
Definition digits (a : Z) : Z := digits_by (Z.to_nat (Z.log2 a)) a.
(** the exponent of the first digit of m * 2^e; no binary64 number is below 10^-400 *)
Definition decimal_exponent (m : positive) (e : Z) : Z :=
  match e with
  | Zneg n => digits (Zpos m * 10 ^ 400 / 2 ^ Zpos n) - 401
  | _ => digits (Zpos m * 2 ^ e) - 1
  end.
(** m * 2^e * 10^s rounded to an integer, ties to even *)
Definition round_scaled (m : positive) (e s : Z) : Z :=
  match e with
  | Zneg n => if 0 <=? s then div_even (Zpos m * 10 ^ s) (2 ^ Zpos n) else div_even (Zpos m) (2 ^ Zpos n * 10 ^ (- s))
  | _ => if 0 <=? s then Zpos m * 2 ^ e * 10 ^ s else div_even (Zpos m * 2 ^ e) (10 ^ (- s))
  end.
(** [p] significant digits and the exponent of the first one; 9.99 may become 1.00e+01 *)
Definition significant_digits (p : Z) (m : positive) (e : Z) : Z * Z :=
  let e10 := decimal_exponent m e in
  let r := round_scaled m e (p - 1 - e10) in
  if r =? 10 ^ p then (10 ^ (p - 1), e10 + 1) else (r, e10).
(** trailing zeros of the [d] decimals of a / 10^d are removed *)
Fixpoint strip (d : nat) (a : Z) : nat * Z :=
  match d with
  | O => (O, a)
  | S k => if a mod 10 =? 0 then strip k (a / 10) else (d, a)
  end.
(** the exponent with a sign and at least two digits *)
Definition exponent_text (e : Z) : string := (if e <? 0 then "-" else "+") ++ padded 2 (Z.abs e).
(** f"{x:+,.ng}" *)
Definition general (n : nat) (x : f64) : string :=
  plus_or_minus x ++
  match x with
  | B754_nan => "nan"
  | B754_infinity _ => "inf"
  | B754_zero _ => "0"
  | B754_finite _ m e _ =>
      let p := Z.max 1 (Z.of_nat n) in
      let '(r, e10) := significant_digits p m e in
      if andb (-4 <=? e10) (e10 <? p)
      then let '(d, a) := strip (Z.to_nat (p - 1 - e10)) r in grouped_digits d a
      else let '(d, a) := strip (Z.to_nat (p - 1)) r in grouped_digits d a ++ "e" ++ exponent_text e10
  end.
(** f"{x:.0%}" *)
Definition whole_percent (x : f64) : string := fixed 0 (fmul x (of_Z 100)) ++ "%".

(** experiment_analysis.py:851-861 *)
Definition format_absolute_ci (significant_figures : nat) (lb ub : f64) : string :=
  general significant_figures lb ++ " to " ++ general significant_figures ub.

(** 52 * sample_size * x, the integers first *)
Definition projected (sample_size : Z) (x : f64) : f64 := fmul (of_Z (52 * sample_size)) x.
(** experiment_analysis.py:864-875 *)
Definition format_projected_ci (decimal_places : nat) (sample_size : Z) (lb ub : f64) : string :=
  signed_grouped decimal_places (projected sample_size lb) ++ " to " ++ signed_grouped decimal_places (projected sample_size ub).

(** *** The table *)
(** a row of the results: the fields of StatisticalTestResults (statistics.py:372-385) that are shown.  The
    three relative fields are None together. *)
Record outcome : Type := mkOut {
  o_metric : string; o_significant : bool; o_alpha : f64; o_p_value : f64;
  o_abs : f64; o_abs_lower : f64; o_abs_upper : f64;
  o_rel : option (f64 * f64 * f64);
  o_sample_size : Z
}.
(** the columns of the results *)
Definition result_columns : list string :=
  ["is_significant"; "alpha"; "p_value"; "statistic"; "absolute_difference"; "absolute_difference_lower_bound";
   "absolute_difference_upper_bound"; "relative_difference"; "relative_difference_lower_bound";
   "relative_difference_upper_bound"; "standard_error"; "sample_size"; "degrees_of_freedom"; "control_average"].

(** DataFrame.from_records (line 832): in a column with a number None becomes NaN; a column of None stays *)
Definition relative_column (l : list outcome) : list (option (f64 * f64 * f64)) :=
  if existsb (fun o => match o_rel o with Some _ => true | None => false end) l
  then map (fun o => Some match o_rel o with Some t => t | None => (B754_nan, B754_nan, B754_nan) end) l
  else map (fun _ => None) l.

(** f"{x:..}" of None *)
Definition cannot_format : exn := TypeError "unsupported format string passed to NoneType.__format__".

(** a column of the displayed data: its two names and its texts (the raw columns have no text here) *)
Definition column : Type := ((string * string) * list string)%type.
Definition raw_columns (l : list outcome) : list column := map (fun c => ((c, ""), map (fun _ => "") l)) result_columns.

(** lines 955-1026: the columns that are not hidden *)
Definition format_results (relative absolute yearly : bool) (dr da dy : nat) (l : list outcome) : result (list column) :=
  match l with
  | [] => Err (IndexError "index 0 is out of bounds for axis 0 with size 0")
  | first :: _ =>
      let ci := whole_percent (fsub (of_Z 1) (o_alpha first)) ++ " CI" in
      let! rel := (if relative then
          let! texts := mapM (fun t => match t with
             | Some (x, lb, ub) => Ok (signed_percent dr x, format_relative_ci dr lb ub)
             | None => Err cannot_format end) (relative_column l) in
          Ok [(("Relative Effect Size", "Point Estimate"), map fst texts); (("Relative Effect Size", ci), map snd texts)]
        else Ok []) in
      let abs := if absolute then
          [(("Absolute Effect Size (per item per week)", "Point Estimate"), map (fun o => general da (o_abs o)) l);
           (("Absolute Effect Size (per item per week)", ci), map (fun o => format_absolute_ci da (o_abs_lower o) (o_abs_upper o)) l)]
        else [] in
      let year := if yearly then
          [(("Projected Effect Size (whole feed, per year)", "Point Estimate"), map (fun o => signed_grouped dy (projected (o_sample_size o) (o_abs o))) l);
           (("Projected Effect Size (whole feed, per year)", ci), map (fun o => format_projected_ci dy (o_sample_size o) (o_abs_lower o) (o_abs_upper o)) l)]
        else [] in
      let p := [(("P-value", ""), map (fun o => format_p_value (o_p_value o) (o_alpha o)) l)] in
      let all := (raw_columns l ++ rel ++ abs ++ year ++ p)%list in
      let hide := map (fun c => (c, "")) result_columns in
      Ok (filter (fun c => negb (existsb (fun h => andb (String.eqb (fst h) (fst (fst c))) (String.eqb (snd h) (snd (fst c)))) hide)) all)
  end.
