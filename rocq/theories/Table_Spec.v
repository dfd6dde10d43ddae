(** How a number with thousands separators or an exponent is read, and which number should be shown.  Independent of
    Table_Model.v. *)
From Coq Require Import ZArith Reals List String Ascii Bool.
From Flocq Require Import Core.
Require Import Verif.Display_Spec.
Import ListNotations.
Open Scope string_scope.

(** the text before the first [c] and, if there is one, the text after it *)
Fixpoint cut (c : ascii) (s : string) : string * option string :=
  match s with
  | "" => ("", None)
  | String a r => if Ascii.eqb a c then ("", Some r) else let '(h, t) := cut c r in (String a h, t)
  end.
Fixpoint without (c : ascii) (s : string) : string :=
  match s with "" => "" | String a r => if Ascii.eqb a c then without c r else String a (without c r) end.
Fixpoint has (c : ascii) (s : string) : bool :=
  match s with "" => false | String a r => orb (Ascii.eqb a c) (has c r) end.

(** digits, at least one *)
Definition read_number (s : string) : option Z := match s with "" => None | _ => read_digits 0 s end.
Definition both {A B C : Type} (f : A -> B -> C) (x : option A) (y : option B) : option C :=
  match x, y with Some a, Some b => Some (f a b) | _, _ => None end.
(** 1,234.5 *)
Definition read_mantissa (s : string) : option R :=
  let '(i, f) := cut "." s in
  match f with
  | None => option_map IZR (read_number (without "," i))
  | Some f => both (fun a b => IZR a + IZR b / 10 ^ String.length f)%R (read_number (without "," i)) (read_number f)
  end.
(** +05, -324 *)
Definition read_exponent (s : string) : option Z :=
  match s with
  | String "+" k => read_number k
  | String "-" k => option_map Z.opp (read_number k)
  | _ => None
  end.
Definition radix10 : radix := Build_radix 10 eq_refl.
(** 1.23e+05 *)
Definition read_unsigned (s : string) : option R :=
  let '(m, e) := cut "e" s in
  match e with
  | None => read_mantissa m
  | Some k => both (fun v j => v * bpow radix10 j)%R (read_mantissa m) (read_exponent k)
  end.
(** the number a text stands for; the sign is required *)
Definition read_signed (s : string) : option R :=
  match s with
  | String "+" r => read_unsigned r
  | String "-" r => option_map Ropp (read_unsigned r)
  | _ => None
  end.

(** groups of three digits: 12,345,678 *)
Inductive in_groups : string -> Prop :=
| first_group s : s <> "" -> String.length s <= 3 -> read_digits 0 s <> None -> in_groups s
| next_group s t : in_groups s -> String.length t = 3 -> read_digits 0 t <> None -> in_groups (s ++ "," ++ t).

(** [x] to [p] significant digits, [x] to [d] decimals: the nearest such number, ties to the even last digit *)
Definition to_figures (p : Z) (x : R) : R := round radix10 (FLX_exp p) ZnearestE x.
Definition to_decimals (d : nat) (x : R) : R := round radix10 (FIX_exp (- Z.of_nat d)) ZnearestE x.
