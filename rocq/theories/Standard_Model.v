(** Model of /repo/feedx/data_preparation.py:365-494 [standardize_column_names_and_types]. *)
From Coq Require Import ZArith List String Bool.
Require Import Verif.Base Verif.Num Verif.Frame.
Import ListNotations.
Open Scope string_scope.

(** a parse function: a Series to a Series, or an exception *)
Definition parser : Type := list cell -> result (list cell).

Section Standardize.
(** the library conversions of lines 424-432 (astype(str), pd.to_datetime, pd.to_numeric),
    indexed by the standard column name *)
Variable std_parser : string -> parser.

(** lines 425-431 and 434-440, in order *)
Definition standard_names : list string :=
  ["item_id"; "date"; "clicks"; "impressions"; "total_cost"; "conversions"; "total_conversion_value"].

Definition in_names (n : string) (l : list string) : bool := existsb (String.eqb n) l.

(** lines 443-448 *)
Definition check_custom (custom : list (string * string)) : result unit :=
  raise_if (existsb (fun c => in_names (fst c) standard_names) custom)
    (ValueError "custom column is one of the standard columns").

(** lines 450-460 *)
Fixpoint check_parsers (custom : list (string * string)) (parsers : list (string * parser)) : result unit :=
  match parsers with
  | [] => Ok tt
  | (n, _) :: r =>
      let! _ := raise_if (in_names n standard_names) (ValueError "standard parse function") in
      let! _ := raise_if (negb (in_names n (map fst custom))) (ValueError "parse function without column") in
      check_parsers custom r
  end.

(** lines 434-440 and 463-469: the requested names with their input columns, None dropped *)
Definition column_names (inputs : list (option string)) (custom : list (string * string)) : list (string * string) :=
  flat_map (fun ni => match snd ni with Some i => [(fst ni, i)] | None => [] end) (combine standard_names inputs)
  ++ custom.

(** dictionary lookup, a later entry for the same key wins (lines 475-478) *)
Fixpoint dict_get {B} (k : string) (l : list (string * B)) : option B :=
  match l with
  | [] => None
  | (x, b) :: r => match dict_get k r with
                   | Some b' => Some b'
                   | None => if String.eqb k x then Some b else None
                   end
  end.
Definition renamer (names : list (string * string)) : list (string * string) := map (fun ni => (snd ni, fst ni)) names.

(** lines 486-487: data[list of inputs], then rename *)
Definition select_and_rename (f : frame) (names : list (string * string)) : result frame :=
  mapM (fun ni => match get_col (snd ni) f with
                  | None => Err (KeyError (snd ni))
                  | Some v => Ok (match dict_get (snd ni) (renamer names) with Some n => n | None => snd ni end, v)
                  end) names.

Definition parse_fun (parsers : list (string * parser)) (n : string) : option parser :=
  match dict_get n parsers with
  | Some p => Some p
  | None => if in_names n standard_names then Some (std_parser n) else None
  end.

Definition occurrences (n : string) (l : list string) : nat := List.length (filter (String.eqb n) l).

(** lines 489-491, one column.  If the name occurs twice in the output, output_data[column] is
    a DataFrame: to_datetime and to_numeric reject it; custom parse functions are assumed to
    reject it too.  Without a parse function nothing changes. *)
Definition parse_column (parsers : list (string * parser)) (all : list string) (nv : string * list cell)
    : result (string * list cell) :=
  match parse_fun parsers (fst nv) with
  | None => Ok nv
  | Some p => if Nat.eqb (occurrences (fst nv) all) 1
              then let! w := p (snd nv) in Ok (fst nv, w)
              else Err (TypeError "arg must be 1-d")
  end.

(** [inputs] are the seven *_column arguments in the order of [standard_names]; the first two
    are always given.  The dictionaries are lists of pairs with distinct keys. *)
Definition standardize (f : frame) (inputs : list (option string)) (custom : list (string * string))
    (parsers : list (string * parser)) : result frame :=
  let! _ := check_custom custom in
  let! _ := check_parsers custom parsers in
  let names := column_names inputs custom in
  let! _ := raise_if (existsb (fun ni => negb (has_col (snd ni) f)) names) (ValueError "input column does not exist") in
  let! out := select_and_rename f names in
  mapM (parse_column parsers (columns out)) out.
End Standardize.
