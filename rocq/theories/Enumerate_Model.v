(** Model of /repo/feedx/experiment_simulations.py:40-193 (design enumeration). *)
From Coq Require Import ZArith List String Bool.
Require Import Verif.Base Verif.F64 Verif.Design_Model.
Import ListNotations.
Open Scope string_scope.
Open Scope Z_scope.

(** one element of the product of experiment_simulations.py:97-111 *)
Definition combo : Type := Z * Z * f64 * f64 * f64.

(** experiment_simulations.py:97-103: itertools.product of the five candidate collections *)
Definition product5 (rs ps : list Z) (ts bs qs : list f64) : list combo :=
  list_prod (list_prod (list_prod (list_prod rs ps) ts) bs) qs.

(** the two constructor calls of experiment_simulations.py:119-127 and 138-147 (fields not
    passed take the dataclass defaults) *)
Definition traditional_params (n : Z) (m : string) (c : combo) : params :=
  let '(r, p, t, b, q) := c in
  mkParams n r m p false t b q default_washout default_alpha default_power default_salt.
Definition crossover_params (n : Z) (m : string) (w : Z) (c : combo) : params :=
  let '(r, p, t, b, q) := c in
  mkParams n r m p true t b q (Some w) default_alpha default_power default_salt.

(** experiment_simulations.py:130-134; "2 * None" raises before the conjunction is formed,
    because "&" does not short-circuit *)
Definition can_crossover (xallowed : bool) (wash : option Z) (r : Z) : result bool :=
  match wash with
  | None => Err (TypeError "2 * None")
  | Some w => Ok (andb (andb xallowed (r >? 2 * w)) (r mod 2 =? 0))
  end.

(** body of the loop, experiment_simulations.py:112-148; [acc] is valid_designs *)
Definition enum_step (n : Z) (xallowed tallowed : bool) (m : string) (wash : option Z)
    (acc : list design) (c : combo) : result (list design) :=
  let '(r, p, t, b, q) := c in
  let has_pretrimming := fgtb (fadd t b) f0 in
  if andb has_pretrimming (p =? 0) then Ok acc
  else
    let! acc1 :=
      (if tallowed then
         let! d := mk_design (traditional_params n m c) in Ok (acc ++ [d])%list
       else Ok acc) in
    let! cc := can_crossover xallowed wash r in
    if cc then
      match wash with
      | None => Err (TypeError "2 * None")
      | Some w => let! d := mk_design (crossover_params n m w c) in Ok (acc1 ++ [d])%list
      end
    else Ok acc1.

Fixpoint enum_loop (n : Z) (xallowed tallowed : bool) (m : string) (wash : option Z)
    (acc : list design) (cs : list combo) : result (list design) :=
  match cs with
  | [] => Ok acc
  | c :: cs' =>
      let! acc' := enum_step n xallowed tallowed m wash acc c in
      enum_loop n xallowed tallowed m wash acc' cs'
  end.

(** experiment_simulations.py:40-150 [generate_all_valid_designs] *)
Definition generate_all_valid_designs (n : Z) (xallowed tallowed : bool) (rs ps : list Z)
    (ts bs qs : list f64) (m : string) (wash : option Z) : result (list design) :=
  let! _ := raise_if (andb xallowed (match wash with None => true | Some _ => false end))
              (ValueError "washout missing") in
  enum_loop n xallowed tallowed m wash [] (product5 rs ps ts bs qs).

(** Python's max and min of a collection of ints *)
Definition py_max (l : list Z) : result Z :=
  match l with [] => Err (ValueError "max() of empty") | x :: r => Ok (fold_left Z.max r x) end.
Definition py_min (l : list Z) : result Z :=
  match l with [] => Err (ValueError "min() of empty") | x :: r => Ok (fold_left Z.min r x) end.

(** experiment_simulations.py:153-193 [calculate_minimum_start_week_id] *)
Definition calculate_minimum_start_week_id (rs ps hist : list Z) : result Z :=
  let! max_runtime := py_max rs in
  let! max_pretest := py_max ps in
  let! first := py_min hist in
  let! last := py_max hist in
  let weeks := last - first + 1 in
  let! _ := raise_if (weeks <? max_runtime + max_pretest) (ValueError "not enough data") in
  Ok (first + max_pretest).
