(** Model of /repo/feedx/experiment_design.py. *)
From Coq Require Import ZArith NArith List String Ascii Bool DecimalString Decimal DecimalZ.
From Flocq Require Import BinarySingleNaN.
Require Import Verif.Base Verif.F64 Verif.MD5.
Import ListNotations.
Open Scope string_scope.
Open Scope Z_scope.

(** experiment_design.py:54-66, the init fields of the dataclass *)
Record params := mkParams {
  n_before : Z;              (* n_items_before_trimming *)
  runtime : Z;               (* runtime_weeks *)
  metric : string;           (* primary_metric *)
  pretest : Z;               (* pretest_weeks *)
  crossover : bool;          (* is_crossover *)
  top : f64;                 (* pre_trim_top_percentile *)
  bottom : f64;              (* pre_trim_bottom_percentile *)
  post : f64;                (* post_trim_percentile *)
  washout : option Z;        (* crossover_washout_weeks *)
  alpha : f64;
  power : f64;
  salt : option string       (* coinflip_salt *)
}.

(** experiment_design.py:54-69, all fields *)
Record design := mkDesignRec {
  par : params;
  n_pre : Z;                 (* n_items_after_pre_trim *)
  n_post : Z                 (* n_items_after_post_trim *)
}.

(** defaults of lines 63-66 *)
Definition default_washout : option Z := None.
Definition default_alpha : f64 := flit 5 100.
Definition default_power : f64 := flit 8 10.
Definition default_salt : option string := None.

(** experiment_design.py:71-125 [_validate_design] *)
Definition validate_design (d : design) : result unit :=
  let p := par d in
  let! _ := raise_if (runtime p <=? 0) (ValueError "runtime") in
  let! _ := raise_if (pretest p <? 0) (ValueError "pretest") in
  let! _ := raise_if (fltb (top p) f0) (ValueError "top") in
  let! _ := raise_if (fltb (bottom p) f0) (ValueError "bottom") in
  let! _ := raise_if (fltb (post p) f0) (ValueError "post") in
  let! _ := raise_if (fgeb (fadd (top p) (bottom p)) f1) (ValueError "top+bottom") in
  let! _ := raise_if (fgeb (post p) fhalf) (ValueError "post>=0.5") in
  let has_pretrimming := orb (fgtb (top p) f0) (fgtb (bottom p) f0) in
  let! _ := raise_if (andb (pretest p =? 0) has_pretrimming) (ValueError "pretrim without pretest") in
  let! _ :=
    (if crossover p then
       match washout p with
       | None => Err (ValueError "washout missing")
       | Some w =>
           let! _ := raise_if (w <? 0) (ValueError "washout<0") in
           let! _ := raise_if (runtime p <=? 2 * w) (ValueError "runtime<=2*washout") in
           raise_if (negb (runtime p mod 2 =? 0)) (ValueError "odd runtime")
       end
     else Ok tt) in
  raise_if (n_post d <=? 50) (ValueError "too few items").

(** experiment_design.py:127-145 [__post_init__] *)
Definition mk_design (p : params) : result design :=
  let! pre_trim_top := floor_mul (top p) (n_before p) in
  let! pre_trim_bottom := floor_mul (bottom p) (n_before p) in
  let npre := n_before p - pre_trim_top - pre_trim_bottom in
  let! post_trim_each_side := floor_mul (post p) npre in
  let npost := npre - 2 * post_trim_each_side in
  let d := mkDesignRec p npre npost in
  let! _ := validate_design d in
  Ok d.

(** assignment "design.coinflip_salt = s" (data_preparation.py:1777-1784); the dataclass
    is mutable and does not re-validate *)
Definition set_salt (d : design) (s : option string) : design :=
  let p := par d in
  mkDesignRec
    (mkParams (n_before p) (runtime p) (metric p) (pretest p) (crossover p) (top p)
       (bottom p) (post p) (washout p) (alpha p) (power p) s)
    (n_pre d) (n_post d).

(* ------------------------------------------------------------------ *)
(** YAML *)

(** scalar values PyYAML produces for the fields *)
Inductive yval := YNull | YBool (b : bool) | YInt (z : Z) | YFloat (f : f64) | YStr (s : string).

(** a YAML document as the mapping that [yaml.safe_load] returns; PyYAML's text syntax
    (dump followed by safe_load returns the same scalars) is not modelled *)
Definition doc := list (string * yval).

Fixpoint lookup {A} (k : string) (l : list (string * A)) : option A :=
  match l with
  | [] => None
  | (k', v) :: r => if String.eqb k k' then Some v else lookup k r
  end.

Definition yopt_int (o : option Z) : yval := match o with None => YNull | Some z => YInt z end.
Definition yopt_str (o : option string) : yval := match o with None => YNull | Some s => YStr s end.

(** experiment_design.py:198-206 [write_to_yaml]: dataclasses.asdict then yaml.dump, which
    sorts the keys *)
Definition dump_design (d : design) : doc :=
  let p := par d in
  [("alpha", YFloat (alpha p)); ("coinflip_salt", yopt_str (salt p));
   ("crossover_washout_weeks", yopt_int (washout p)); ("is_crossover", YBool (crossover p));
   ("n_items_after_post_trim", YInt (n_post d)); ("n_items_after_pre_trim", YInt (n_pre d));
   ("n_items_before_trimming", YInt (n_before p)); ("post_trim_percentile", YFloat (post p));
   ("power", YFloat (power p)); ("pre_trim_bottom_percentile", YFloat (bottom p));
   ("pre_trim_top_percentile", YFloat (top p)); ("pretest_weeks", YInt (pretest p));
   ("primary_metric", YStr (metric p)); ("runtime_weeks", YInt (runtime p))].

Definition init_keys : list string :=
  ["n_items_before_trimming"; "runtime_weeks"; "primary_metric"; "pretest_weeks";
   "is_crossover"; "pre_trim_top_percentile"; "pre_trim_bottom_percentile";
   "post_trim_percentile"; "crossover_washout_weeks"; "alpha"; "power"; "coinflip_salt"].

(** typed access to keyword arguments.  Python does not check the types; a document whose
    value has another type than the annotation is outside the model and mapped to
    TypeError (an int is accepted for a float field and converted). *)
Definition as_int (v : option yval) : result Z :=
  match v with Some (YInt z) => Ok z | _ => Err (TypeError "int argument") end.
Definition as_float (v : option yval) : result f64 :=
  match v with
  | Some (YFloat f) => Ok f | Some (YInt z) => Ok (of_Z z)
  | _ => Err (TypeError "float argument") end.
Definition as_str (v : option yval) : result string :=
  match v with Some (YStr s) => Ok s | _ => Err (TypeError "str argument") end.
Definition as_bool (v : option yval) : result bool :=
  match v with Some (YBool b) => Ok b | _ => Err (TypeError "bool argument") end.
Definition as_opt_int (v : option yval) : result (option Z) :=
  match v with
  | None => Ok default_washout
  | Some YNull => Ok None | Some (YInt z) => Ok (Some z)
  | _ => Err (TypeError "optional int argument") end.
Definition as_opt_str (v : option yval) : result (option string) :=
  match v with
  | None => Ok default_salt
  | Some YNull => Ok None | Some (YStr z) => Ok (Some z)
  | _ => Err (TypeError "optional str argument") end.
Definition as_float_default (v : option yval) (dflt : f64) : result f64 :=
  match v with None => Ok dflt | _ => as_float v end.

(** the keyword call cls( **raw_values ) of experiment_design.py:179 *)
Definition params_of_kwargs (kw : doc) : result params :=
  if forallb (fun kv => existsb (String.eqb (fst kv)) init_keys) kw then
    let! nb := as_int (lookup "n_items_before_trimming" kw) in
    let! rt := as_int (lookup "runtime_weeks" kw) in
    let! me := as_str (lookup "primary_metric" kw) in
    let! pt := as_int (lookup "pretest_weeks" kw) in
    let! cr := as_bool (lookup "is_crossover" kw) in
    let! tp := as_float (lookup "pre_trim_top_percentile" kw) in
    let! bt := as_float (lookup "pre_trim_bottom_percentile" kw) in
    let! ps := as_float (lookup "post_trim_percentile" kw) in
    let! wo := as_opt_int (lookup "crossover_washout_weeks" kw) in
    let! al := as_float_default (lookup "alpha" kw) default_alpha in
    let! pw := as_float_default (lookup "power" kw) default_power in
    let! sa := as_opt_str (lookup "coinflip_salt" kw) in
    Ok (mkParams nb rt me pt cr tp bt ps wo al pw sa)
  else Err (TypeError "unexpected keyword argument").

Definition remove_key (k : string) (l : doc) : doc :=
  filter (fun kv => negb (String.eqb k (fst kv))) l.

(** Python [loaded == count] for a loaded scalar (int/float comparison; exact for counts up
    to 2^53) *)
Definition yval_eq_int (v : yval) (z : Z) : bool :=
  match v with
  | YInt z' => z' =? z
  | YFloat f => andb (is_finite f) (feqb f (of_Z z))
  | YBool b => (if b then 1 else 0) =? z
  | _ => false
  end.

(** experiment_design.py:159-196 [load_from_yaml], after the file has been parsed *)
Definition load_doc (raw : doc) : result design :=
  match lookup "n_items_after_pre_trim" raw with
  | None => Err (KeyError "n_items_after_pre_trim")
  | Some lpre =>
      let raw1 := remove_key "n_items_after_pre_trim" raw in
      match lookup "n_items_after_post_trim" raw1 with
      | None => Err (KeyError "n_items_after_post_trim")
      | Some lpost =>
          let raw2 := remove_key "n_items_after_post_trim" raw1 in
          let! p := params_of_kwargs raw2 in
          let! d := mk_design p in
          let! _ := raise_if (negb (yval_eq_int lpre (n_pre d))) (ValueError "pre count mismatch") in
          let! _ := raise_if (negb (yval_eq_int lpost (n_post d))) (ValueError "post count mismatch") in
          Ok d
      end
  end.

(** a file system restricted to YAML files: path -> parsed content *)
Definition store := list (string * doc).

(** experiment_design.py:198-206: open(path, "w") truncates, later content wins *)
Definition write_to_yaml (st : store) (path : string) (d : design) : store :=
  (path, dump_design d) :: st.

(** experiment_design.py:159-196 *)
Definition load_from_yaml (st : store) (path : string) : result design :=
  match lookup path st with
  | None => Err (FileNotFoundError path)
  | Some raw => load_doc raw
  end.

(* ------------------------------------------------------------------ *)
(** repr and design_id *)

(** str / repr of a Python int *)
Definition dec (z : Z) : string := NilEmpty.string_of_int (Z.to_int z).

Definition quote1 : ascii := "'"%char.
Definition quote2 : ascii := ascii_of_nat 34.
Definition backslash : ascii := "\"%char.

Fixpoint has_char (c : ascii) (s : string) : bool :=
  match s with EmptyString => false | String a r => orb (Ascii.eqb a c) (has_char c r) end.

(** one character of the repr of a str with quote character q (bytes above 127 belong to
    printable non-ASCII characters and are kept; simplification) *)
Definition repr_char (q c : ascii) : string :=
  if Ascii.eqb c backslash then String backslash (String backslash EmptyString)
  else if Ascii.eqb c q then String backslash (String q EmptyString)
  else if Ascii.eqb c (ascii_of_nat 10) then String backslash "n"
  else if Ascii.eqb c (ascii_of_nat 13) then String backslash "r"
  else if Ascii.eqb c (ascii_of_nat 9) then String backslash "t"
  else if orb (Nat.ltb (nat_of_ascii c) 32) (Nat.eqb (nat_of_ascii c) 127)
  then String backslash (String "x" (hex_byte (N_of_ascii c)))
  else String c EmptyString.

Fixpoint repr_body (q : ascii) (s : string) : string :=
  match s with EmptyString => EmptyString | String c r => repr_char q c ++ repr_body q r end.

(** Python [repr] of a str: single quotes unless the text has a single and no double quote *)
Definition repr_str (s : string) : string :=
  let q := if andb (has_char quote1 s) (negb (has_char quote2 s)) then quote2 else quote1 in
  String q (repr_body q s ++ String q EmptyString).

Definition repr_bool (b : bool) : string := if b then "True" else "False".
Definition repr_opt_int (o : option Z) : string := match o with None => "None" | Some z => dec z end.
Definition repr_opt_str (o : option string) : string := match o with None => "None" | Some z => repr_str z end.

Section WithFloatRepr.
(** [repr] of a Python float *)
Variable frepr : f64 -> string.

(** the dataclass-generated [__repr__] (experiment_design.py:26, fields in order) *)
Definition repr_design (d : design) : string :=
  let p := par d in
  "ExperimentDesign(n_items_before_trimming=" ++ dec (n_before p) ++
  ", runtime_weeks=" ++ dec (runtime p) ++
  ", primary_metric=" ++ repr_str (metric p) ++
  ", pretest_weeks=" ++ dec (pretest p) ++
  ", is_crossover=" ++ repr_bool (crossover p) ++
  ", pre_trim_top_percentile=" ++ frepr (top p) ++
  ", pre_trim_bottom_percentile=" ++ frepr (bottom p) ++
  ", post_trim_percentile=" ++ frepr (post p) ++
  ", crossover_washout_weeks=" ++ repr_opt_int (washout p) ++
  ", alpha=" ++ frepr (alpha p) ++
  ", power=" ++ frepr (power p) ++
  ", coinflip_salt=" ++ repr_opt_str (salt p) ++
  ", n_items_after_pre_trim=" ++ dec (n_pre d) ++
  ", n_items_after_post_trim=" ++ dec (n_post d) ++ ")".

(** experiment_design.py:147-157 [design_id]: dataclasses.replace re-runs __post_init__ *)
Definition design_id (d : design) : result string :=
  let! d' := mk_design (par (set_salt d None)) in
  Ok (md5_hexdigest (repr_design d')).
End WithFloatRepr.

(* ------------------------------------------------------------------ *)
(** Crossover weeks of the printed text (the whole text: Text_Model.v) *)

(** Python range(a, b) *)
Definition zrange (a b : Z) : list Z :=
  map (fun i => a + Z.of_nat i) (seq 0 (Z.to_nat (b - a))).

(** experiment_design.py:228-233 *)
Definition printed_washout_weeks (p : params) (w : Z) : list Z :=
  (zrange 1 (w + 1) ++ zrange (runtime p / 2 + 1) (runtime p / 2 + w + 1))%list.

(** experiment_design.py:238-242: "to be swapped N weeks after starting" *)
Definition printed_swap_weeks (p : params) : Z := runtime p / 2.

(* ------------------------------------------------------------------ *)
(** Coinflip, experiment_design.py:311-359 *)

Record coinflip := mkCoinflipRec { cf_salt : string }.

(** experiment_design.py:326-338 *)
Definition mk_coinflip (s : string) : result coinflip :=
  match s with
  | EmptyString => Err (ValueError "Salt must not be empty.")
  | _ => Ok (mkCoinflipRec s)
  end.

(** experiment_design.py:340-344; [bytes] is what the random generator returned *)
Definition coinflip_with_random_salt (bytes : list N) : result coinflip :=
  mk_coinflip (hex_of_bytes bytes).

(** experiment_design.py:346-359; [item] is str(item_id) *)
Definition coinflip_call (c : coinflip) (item : string) : Z :=
  Z.of_N (int_of_hex (md5_hexdigest (cf_salt c ++ item))) mod 2.
