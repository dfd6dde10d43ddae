(** Model of the text of a design, /repo/feedx/experiment_design.py:209-308 ([ExperimentDesign.__str__]).
    Floats appear through [frepr] (str of a float is its repr) and, in percentages, through the format of
    Display_Model.v. *)
From Coq Require Import ZArith List String Ascii Bool.
From Flocq Require Import BinarySingleNaN.
Require Import Verif.Base Verif.F64 Verif.Design_Model Verif.Display_Model.
Import ListNotations.
Open Scope string_scope.
Open Scope Z_scope.

(** the characters \t and \n *)
Definition tab : string := String (ascii_of_nat 9) "".
Definition newline : ascii := ascii_of_nat 10.

(** sep.join(lines) *)
Fixpoint join (sep : string) (lines : list string) : string :=
  match lines with
  | [] => ""
  | [l] => l
  | l :: rest => l ++ sep ++ join sep rest
  end.

(** str of a list of ints *)
Definition str_of_ints (l : list Z) : string := "[" ++ join ", " (map dec l) ++ "]".

(** f"{x:.2%}" *)
Definition percent (x : f64) : string := fixed 2 (fmul x (of_Z 100)) ++ "%".

(** experiment_design.py:210-215 *)
Definition experiment_type (p : params) : string :=
  if crossover p then "crossover experiment"
  else if 0 <? pretest p then "regular experiment (CUPED adjusted)"
  else "regular experiment".

(** experiment_design.py:227-250.  The washout weeks of a validated crossover design are never None; None
    raises TypeError at line 228. *)
Definition crossover_lines (p : params) : result (list string) :=
  if crossover p then
    match washout p with
    | None => Err (TypeError "None + 1")
    | Some w =>
        Ok [""; "Crossover Details:"; "";
            tab ++ "Control and treatment to be swapped " ++ dec (printed_swap_weeks p)
                ++ " weeks after starting the experiment";
            tab ++ "Number of crossover washout weeks to ignore at start of each period: " ++ dec w;
            tab ++ "Weeks " ++ str_of_ints (printed_washout_weeks p w)
                ++ " are the washout weeks to be excluded from the analysis"]
    end
  else Ok [].

(** experiment_design.py:252-298 *)
Definition trimming_lines (d : design) : list string :=
  let p := par d in
  if n_before p =? n_post d then
    [tab ++ "Number of items: " ++ dec (n_before p); tab ++ "No hero / outlier trimming used"]
  else
    List.app [tab ++ "Number of items eligible for experimentation (before trimming): " ++ dec (n_before p)]
      (List.app
        (if n_pre d <? n_before p then
           List.app [""]
             (List.app
               (if fgtb (top p) f0 then
                  [tab ++ "Top " ++ percent (top p) ++ " of items with highest " ++ metric p
                       ++ " in pre-test period will not be included in experiment"]
                else [])
               (List.app
                 (if fgtb (bottom p) f0 then
                    [tab ++ "Bottom " ++ percent (bottom p) ++ " items with lowest " ++ metric p
                         ++ " in pre-test period will not be included in experiment"]
                  else [])
                 [tab ++ "Number of items remaining after trimming for the experiment: " ++ dec (n_pre d)]))
         else [])
        (if n_post d <? n_pre d then
           [""; tab ++ "Top and bottom " ++ percent (post p) ++ " of items with highest / lowest " ++ metric p
                    ++ " during experiment runtime will be excluded from the analysis";
            tab ++ "Number of items remaining after trimming for the analysis: " ++ dec (n_post d)]
         else [])).

Definition str_of_salt (s : option string) : string := match s with None => "None" | Some s => s end.

Section WithFloatRepr.
(** [repr] of a Python float *)
Variable frepr : f64 -> string.

(** experiment_design.py:209-307: the lines *)
Definition design_lines (d : design) : result (list string) :=
  let p := par d in
  let! id := design_id frepr d in
  let head := ["Design " ++ id; "";
               tab ++ "Experiment type: " ++ experiment_type p;
               tab ++ "Primary metric: " ++ metric p;
               tab ++ "Number of weeks of data before start of experiment used for analysis: " ++ dec (pretest p);
               tab ++ "Total experiment runtime weeks: " ++ dec (runtime p)] in
  let! crossover_details := crossover_lines p in
  let items := [""; "Number of items for testing:"; ""] in
  let extra := [""; "Extra details:"; "";
                tab ++ "Alpha threshold: " ++ frepr (alpha p);
                tab ++ "Power: " ++ frepr (power p);
                tab ++ "Coinflip salt: " ++ str_of_salt (salt p)] in
  Ok (head ++ crossover_details ++ items ++ trimming_lines d ++ extra)%list.

(** experiment_design.py:209-308 *)
Definition design_text (d : design) : result string :=
  let! lines := design_lines d in
  Ok (join (String newline "") lines).
End WithFloatRepr.
