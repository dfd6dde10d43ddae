(** How the text of a design is read (independent of how it is written). *)
From Coq Require Import ZArith List String Ascii.
Require Import Verif.Display_Spec.
Import ListNotations.
Open Scope string_scope.

(** the lines of a text: the pieces between newline characters *)
Fixpoint lines_of (text : string) : list string :=
  match text with
  | EmptyString => [""]
  | String c r =>
      if Ascii.eqb c "010" then "" :: lines_of r
      else match lines_of r with [] => [] | l :: ls => String c l :: ls end
  end.

(** the text contains this line, up to the tabulator in front of it *)
Definition says (text line : string) : Prop := In (String "009" line) (lines_of text).
(** the text contains the line made of [prefix] and the number [z] *)
Definition shows (text prefix : string) (z : Z) : Prop :=
  exists digits, says text (prefix ++ digits) /\ numeral digits z.

(** [s] lists the numbers, separated by comma and space *)
Inductive listed : string -> list Z -> Prop :=
| listed_nil : listed "" []
| listed_one s z : numeral s z -> listed s [z]
| listed_cons s z t y l : numeral s z -> listed t (y :: l) -> listed (s ++ ", " ++ t) (z :: y :: l).

(** no newline character *)
Definition one_line (s : string) : Prop := forall a b, s <> a ++ String "010" b.

(** the text contains the line made of [before], a number with two decimals and value z / 100, and [after] *)
Definition shows_percent (text before after : string) (z : Z) : Prop :=
  exists s, decimal 2 s z /\ says text (before ++ s ++ after).
