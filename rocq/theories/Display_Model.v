(** Model of the formatting of experiment results, feedx/experiment_analysis.py:839-905.
    The numbers are the binary64 numbers of the results table (in [Analysis_Model] the same values are extended reals).
    The 'g' format of [_format_absolute_effect_ci_string] (lines 851-862) and the assembling of the table (lines
    908-1052) are in Table_Model.v. *)
From Coq Require Import ZArith List String Ascii Bool DecimalString.
From Flocq Require Import Core BinarySingleNaN.
Require Import Verif.Base Verif.F64 Verif.Design_Model.
Import ListNotations.
Open Scope string_scope.
Open Scope Z_scope.

(** *** Python's fixed-point format *)
(** quotient rounded to the nearest integer, ties to even; k > 0 *)
Definition div_even (z k : Z) : Z :=
  let q := z / k in let r := z mod k in
  match Z.compare (2 * r) k with
  | Lt => q
  | Gt => q + 1
  | Eq => if Z.even q then q else q + 1
  end.
(** a finite float times [m], rounded to an integer. Python formats the exact binary value, rounding half to even. *)
Definition round_times (x : f64) (m : Z) : Z :=
  match x with
  | B754_finite s mx e _ =>
    let z := cond_Zopp s (Zpos mx) * m in
    match e with Zneg n => div_even z (2 ^ Zpos n) | _ => z * 2 ^ e end
  | _ => 0
  end.

Fixpoint zeros (n : nat) : string := match n with O => "" | S k => String "0" (zeros k) end.
(** [z] with at least [n] digits *)
Definition padded (n : nat) (z : Z) : string := let s := dec z in zeros (n - String.length s) ++ s.

(** the digits of [a] / 10^d, a >= 0 *)
Definition fixed_digits (d : nat) (a : Z) : string :=
  let k := 10 ^ Z.of_nat d in
  match d with
  | O => dec a
  | _ => dec (a / k) ++ "." ++ padded d (a mod k)
  end.
Definition negative (x : f64) : bool := match x with B754_nan => false | _ => Bsign x end.
(** the text without the sign *)
Definition unsigned_text (d : nat) (x : f64) : string :=
  match x with
  | B754_nan => "nan"
  | B754_infinity _ => "inf"
  | _ => fixed_digits d (Z.abs (round_times x (10 ^ Z.of_nat d)))
  end.
(** f"{x:.df}" *)
Definition fixed (d : nat) (x : f64) : string := (if negative x then "-" else "") ++ unsigned_text d x.
(** f"{x:+.d%}": times 100 (a float multiplication), a sign always, a percent sign *)
Definition signed_percent (d : nat) (x : f64) : string :=
  let y := fmul x (of_Z 100) in
  (if negative y then "-" else "+") ++ unsigned_text d y ++ "%".

(** *** p-values and rows *)
(** experiment_analysis.py:878-894 *)
Definition format_p_value (p_value alpha : f64) : string :=
  let output :=
    if fltb p_value (flit 1 1000) then "p<0.001"
    else if fltb p_value (flit 1 100) then "p=" ++ fixed 3 p_value
    else if fleb p_value (flit 99 100) then "p=" ++ fixed 2 p_value
    else "p>0.99" in
  if fltb p_value alpha then output ++ " (Significant)" else output.

(** experiment_analysis.py:839-848 *)
Definition format_relative_ci (decimal_places : nat) (lb ub : f64) : string :=
  signed_percent decimal_places lb ++ " to " ++ signed_percent decimal_places ub.

(** experiment_analysis.py:897-905; the row has [n] cells *)
Definition highlight_significant (is_significant : bool) (absolute_difference : f64) (n : nat) : list string :=
  if negb is_significant then repeat "color:grey" n
  else if fgtb absolute_difference f0 then repeat "background-color:lightgreen" n
  else repeat "background-color:pink" n.
