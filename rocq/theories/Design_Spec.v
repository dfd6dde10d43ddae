(** Specification vocabulary for designs, independent of the model's functions: real
    arithmetic and Flocq's rounding only. *)
From Coq Require Import ZArith Reals List String Ascii Bool.
From Flocq Require Import Core BinarySingleNaN.
Require Import Verif.F64 Verif.Design_Model.
Import ListNotations.
Open Scope R_scope.

(** number of items selected by a binary64 fraction: the item count becomes a double, the
    product is rounded to nearest even, then floored *)
Definition trim_count (p : f64) (n : Z) : Z := Zfloor (rnd (B2R p * rnd (IZR n))).

Definition spec_n_pre (p : params) : Z :=
  (n_before p - trim_count (top p) (n_before p) - trim_count (bottom p) (n_before p))%Z.

Definition spec_n_post (p : params) : Z :=
  (spec_n_pre p - 2 * trim_count (post p) (spec_n_pre p))%Z.

(** the documented constraints *)
Record design_ok (p : params) : Prop := {
  ok_runtime : (0 < runtime p)%Z;
  ok_pretest : (0 <= pretest p)%Z;
  ok_finite : is_finite (top p) = true /\ is_finite (bottom p) = true /\ is_finite (post p) = true;
  ok_top : 0 <= B2R (top p);
  ok_bottom : 0 <= B2R (bottom p);
  ok_sum : rnd (B2R (top p) + B2R (bottom p)) < 1;
  ok_post : 0 <= B2R (post p) < 1 / 2;
  ok_pretrim : pretest p = 0%Z -> B2R (top p) = 0 /\ B2R (bottom p) = 0;
  ok_crossover : crossover p = true ->
     exists w, washout p = Some w /\ (0 <= w)%Z /\ (2 * w < runtime p)%Z /\ Z.Even (runtime p);
  ok_range : fits (rnd (IZR (n_before p))) /\ fits (rnd (IZR (spec_n_pre p)));
  ok_items : (50 < spec_n_post p)%Z
}.

(** a YAML document describes the parameters: keys are known, values have the field's type *)
Definition doc_int (raw : doc) (k : string) (z : Z) := lookup k raw = Some (YInt z).
Definition doc_str (raw : doc) (k : string) (s : string) := lookup k raw = Some (YStr s).
Definition doc_bool (raw : doc) (k : string) (b : bool) := lookup k raw = Some (YBool b).
Definition doc_float (raw : doc) (k : string) (x : f64) :=
  lookup k raw = Some (YFloat x) \/ exists z, lookup k raw = Some (YInt z) /\ x = of_Z z.
Definition doc_opt {A} (mk : A -> yval) (raw : doc) (k : string) (o : option A) :=
  match o with
  | None => lookup k raw = None \/ lookup k raw = Some YNull
  | Some a => lookup k raw = Some (mk a)
  end.

Definition known_keys : list string :=
  ["n_items_before_trimming"; "runtime_weeks"; "primary_metric"; "pretest_weeks";
   "is_crossover"; "pre_trim_top_percentile"; "pre_trim_bottom_percentile";
   "post_trim_percentile"; "crossover_washout_weeks"; "alpha"; "power"; "coinflip_salt";
   "n_items_after_pre_trim"; "n_items_after_post_trim"]%string.

Record doc_describes (raw : doc) (p : params) : Prop := {
  dd_keys : forall k v, In (k, v) raw -> In k known_keys;
  dd_n : doc_int raw "n_items_before_trimming" (n_before p);
  dd_run : doc_int raw "runtime_weeks" (runtime p);
  dd_met : doc_str raw "primary_metric" (metric p);
  dd_pre : doc_int raw "pretest_weeks" (pretest p);
  dd_cross : doc_bool raw "is_crossover" (crossover p);
  dd_top : doc_float raw "pre_trim_top_percentile" (top p);
  dd_bot : doc_float raw "pre_trim_bottom_percentile" (bottom p);
  dd_post : doc_float raw "post_trim_percentile" (post p);
  dd_wash : doc_opt YInt raw "crossover_washout_weeks" (washout p);
  dd_alpha : doc_float raw "alpha" (alpha p) \/
             (lookup "alpha" raw = None /\ alpha p = flit 5 100);
  dd_power : doc_float raw "power" (power p) \/
             (lookup "power" raw = None /\ power p = flit 8 10);
  dd_salt : doc_opt YStr raw "coinflip_salt" (salt p)
}.

(** the stored scalar denotes the count *)
Definition denotes_count (v : yval) (z : Z) : Prop :=
  match v with
  | YInt z' => z' = z
  | YFloat f => is_finite f = true /\ is_finite (of_Z z) = true /\ B2R f = B2R (of_Z z)
  | YBool b => z = (if b then 1 else 0)%Z   (* Python: True == 1 *)
  | _ => False
  end.

(** laws assumed of Python's repr of floats: it identifies the double and has no comma *)
Record FloatRepr := {
  fr : f64 -> string;
  fr_inj : forall x y, fr x = fr y -> x = y;
  fr_nocomma : forall x, has_char ","%char (fr x) = false
}.
