(** How a displayed number is read (independent of how it is written). *)
From Coq Require Import ZArith Reals List String Ascii Bool.
Import ListNotations.
Open Scope string_scope.

(** the value of a digit character *)
Definition digit (c : ascii) : option Z :=
  let n := Z.of_nat (nat_of_ascii c) in if (48 <=? n)%Z && (n <=? 57)%Z then Some (n - 48)%Z else None.
(** a string of digits read from the left, [acc] being the value of those already read *)
Fixpoint read_digits (acc : Z) (s : string) : option Z :=
  match s with
  | "" => Some acc
  | String c r => match digit c with Some v => read_digits (10 * acc + v) r | None => None end
  end.
(** [s] is a non-empty string of digits with value [z] *)
Definition numeral (s : string) (z : Z) : Prop := s <> "" /\ read_digits 0 s = Some z.
(** [s] is a decimal number with [d] decimals and value z / 10^d *)
Definition decimal (d : nat) (s : string) (z : Z) : Prop :=
  exists i f, s = i ++ "." ++ f /\ String.length f = d /\ i <> "" /\ read_digits 0 (i ++ f) = Some z.

(** the value shown *)
Definition shown (d : nat) (s : string) (v : R) : Prop := exists z, decimal d s z /\ (v = IZR z / 10 ^ d)%R.
