(** Specification vocabulary for the preparation of raw data frames. *)
From Coq Require Import ZArith List String Bool.
Require Import Verif.Base Verif.Num Verif.Frame Verif.Rows_Model.
Import ListNotations.
Open Scope string_scope.
Open Scope Z_scope.

(** the column [c] of the frame, converted, has no missing entry and is the list [l] *)
Definition reads {A} (wrap : A -> cell) (convert : list cell -> result (list cell)) (f : frame) (c : string) (l : list A) : Prop :=
  exists v, get_col c f = Some v /\ List.length l = List.length v /\ convert v = Ok (map wrap l).

(** the rows of a table with these columns *)
Definition table_rows (items : list string) (dates : list Z) (metrics : list (list num)) : list obs :=
  map (fun i => mkObs (nth i items "") (nth i dates 0) (map (fun l => nth i l NaN) metrics)) (seq 0 (List.length items)).

(** names of metrics that the preparation of historical data uses itself *)
Definition reserved_names : list string := ["week_id"; "week_start"; "days_in_week"].

(** *** Experiment data *)
(** the metric columns that are read: clean name and name in the raw data *)
Definition metric_sources (inputs : list (option string)) (others : list string) : list (string * string) :=
  (flat_map (fun ni => match snd ni with Some i => [(fst ni, i)] | None => [] end)
     (combine ["clicks"; "impressions"; "total_cost"; "conversions"; "total_conversion_value"] inputs)
   ++ map (fun c => (c, c)) others)%list.

(** names that another metric must not have *)
Definition taken_names : list string :=
  ["item_id"; "date"; "clicks"; "impressions"; "total_cost"; "conversions"; "total_conversion_value";
   "week_id"; "week_start"; "time_period"; "treatment_assignment"].

(** the performance data has the requested columns, and their conversions are these lists *)
Definition performance_reads (std : string -> list cell -> result (list cell)) (to_float : list cell -> result (list cell))
    (perf : frame) (item date : string) (inputs : list (option string)) (others : list string)
    (ids : list string) (dates : list Z) (cols : list (list num)) : Prop :=
  List.length inputs = 5%nat /\
  NoDup (item :: date :: map snd (metric_sources inputs others)) /\
  NoDup others /\ (forall c, In c others -> ~ In c taken_names) /\
  reads CStr (std "item_id") perf item ids /\ reads CZ (std "date") perf date dates /\
  List.length dates = List.length ids /\
  Forall2 (fun src l => reads CNum (if existsb (String.eqb (fst src)) others then to_float else std (fst src)) perf (snd src) l)
    (metric_sources inputs others) cols /\
  (* the first date is converted to the same instant when it stands alone *)
  (forall c cs z zs n, get_col date perf = Some (c :: cs) -> dates = z :: zs -> std "date" (repeat c n) = Ok (repeat (CZ z) n)).

(** the columns of the assignment data other than the item and the arm *)
Definition other_columns (item arm : string) (asg : frame) : frame :=
  filter (fun nv => negb (orb (String.eqb (fst nv) item) (String.eqb (fst nv) arm))) asg.

(** the assignment data has an item and an arm column, and their conversions are these lists *)
Definition assignment_reads (std : string -> list cell -> result (list cell)) (to_int : list cell -> result (list Z))
    (asg : frame) (item arm : string) (ids : list string) (arms : list Z) : Prop :=
  NoDup (columns asg) /\ item <> arm /\
  (forall n, In n (columns (other_columns item arm asg)) -> n <> "item_id" /\ n <> "treatment_assignment") /\
  reads CStr (std "item_id") asg item ids /\
  (exists v, get_col arm asg = Some v /\ List.length v = List.length ids /\ to_int v = Ok arms) /\ List.length arms = List.length ids /\
  (forall nv, In nv (other_columns item arm asg) -> List.length (snd nv) = List.length ids).
