(** Model of /repo/feedx/data_preparation.py:91-362 (samplers, synthetic data, demo effects). *)
From Coq Require Import ZArith Reals List String Bool.
From Coq Require Import DecimalString DecimalNat.
From Flocq Require Import Core.
Require Import Verif.Base Verif.Num Verif.Frame.
Import ListNotations.
Open Scope string_scope.
Open Scope list_scope.
Open Scope R_scope.

(** data_preparation.py:91-109 [_sample_from_lognormal]: the parameters handed to rng.lognormal, for
    one cell.  Means and deviations are finite reals (an infinite or NaN one is not modelled). *)
Definition lognormal_mu (mean sd : R) : R := ln mean - 1 / 2 * ln (sd ^ 2 / mean ^ 2 + 1).
Definition lognormal_sigma (mean sd : R) : R := sqrt (ln (sd ^ 2 / mean ^ 2 + 1)).
(** lines 98-103: the checks, [means] is the array (a scalar is a list of one) *)
Definition lognormal_checks (means : list R) (sd : R) : result unit :=
  let! _ := raise_if (negb (forallb (fun m => Rlt_bool 0 m) means)) (ValueError "mean must be greater than 0") in
  raise_if (negb (Rlt_bool 0 sd)) (ValueError "standard_deviation must be greater than 0").

(** data_preparation.py:112-131 [_sample_from_beta] (scalars: the chained comparison only works on
    those) *)
Definition beta_checks (mean sd : R) : result unit :=
  let! _ := raise_if (negb (andb (Rlt_bool 0 mean) (Rlt_bool mean 1))) (ValueError "mean must be between 0 and 1") in
  raise_if (negb (andb (Rlt_bool 0 sd) (Rlt_bool sd 1))) (ValueError "standard_deviation must be between 0 and 1").
Definition beta_a_plus_b (mean sd : R) : R := sqrt (mean * (1 - mean)) / sd.
Definition beta_a (mean sd : R) : R := mean * beta_a_plus_b mean sd.
Definition beta_b (mean sd : R) : R := (1 - mean) * beta_a_plus_b mean sd.

(** The random generator: the outcome of each draw as a function of which call it is (first
    argument), the parameters of the cell and its position (last two).  Nothing is assumed of the
    outcomes except their documented ranges.  The values are reals, so a lognormal draw that
    underflows to 0.0 is not modelled; nor is a Poisson mean numpy refuses as too large. *)
Record rng : Type := mkRng {
  draw_lognormal : nat -> R -> R -> nat -> nat -> R;
  draw_beta : nat -> R -> R -> nat -> nat -> R;
  draw_poisson : nat -> R -> nat -> nat -> Z;
  draw_binomial : nat -> Z -> R -> nat -> nat -> Z;
  lognormal_range : forall k mu sigma i j, 0 < draw_lognormal k mu sigma i j;
  beta_range : forall k a b i j, 0 <= draw_beta k a b i j <= 1;
  poisson_range : forall k lam i j, (0 <= draw_poisson k lam i j)%Z;
  binomial_range : forall k n p i j, (0 <= n)%Z -> (0 <= draw_binomial k n p i j <= n)%Z
}.

Record srow : Type := mkSRow {
  s_date : Z; s_item : string; s_impressions : Z; s_clicks : Z; s_conversions : Z;
  s_cost : R; s_value : R
}.

Record sparams : Type := mkSP {
  n_items : Z;
  imp_avg : R; imp_sd : R; ctr_avg : R; ctr_sd : R;
  cpc_avg : R; cpc_item_sd : R; cpc_daily_sd : R;
  cvr_avg : R; cvr_sd : R;
  val_avg : R; val_item_sd : R; val_daily_sd : R;
  weeks_before : Z; weeks_after : Z
}.

(** python range(n) *)
Definition py_range (n : Z) : list Z := map Z.of_nat (seq 0 (Z.to_nat n)).

(** data_preparation.py:196-205: dates as day numbers (formatting and the datetime range are not modelled) *)
Definition synth_dates (start before after : Z) : list Z :=
  map (fun i => start + i)%Z (py_range (after * 7)) ++ map (fun i => start - (i + 1))%Z (py_range (before * 7)).

(** line 207: f"item_{i}" *)
Definition item_id (i : nat) : string := ("item_" ++ NilEmpty.string_of_uint (Nat.to_uint i))%string.

(** lines 213-252: a negative n_items is refused by numpy when the first array is drawn *)
Definition check_size (n : Z) : result unit := raise_if (n <? 0)%Z (ValueError "negative dimensions are not allowed").

(** data_preparation.py:134-286 [generate_synthetic_data].  np.meshgrid + flatten: item by item, and
    for each item date by date. *)
Definition generate_synthetic_data (g : rng) (p : sparams) (start : Z) : result (list srow) :=
  let dates := synth_dates start (weeks_before p) (weeks_after p) in
  let items := Z.to_nat (n_items p) in
  let! _ := lognormal_checks [imp_avg p] (imp_sd p) in
  let! _ := check_size (n_items p) in
  let expected_impressions i := draw_lognormal g 0 (lognormal_mu (imp_avg p) (imp_sd p)) (lognormal_sigma (imp_avg p) (imp_sd p)) i 0 in
  let! _ := beta_checks (ctr_avg p) (ctr_sd p) in
  let expected_ctr i := draw_beta g 1 (beta_a (ctr_avg p) (ctr_sd p)) (beta_b (ctr_avg p) (ctr_sd p)) i 0 in
  let! _ := lognormal_checks [cpc_avg p] (cpc_item_sd p) in
  let expected_cpc i := draw_lognormal g 2 (lognormal_mu (cpc_avg p) (cpc_item_sd p)) (lognormal_sigma (cpc_avg p) (cpc_item_sd p)) i 0 in
  let! _ := beta_checks (cvr_avg p) (cvr_sd p) in
  let expected_conversion_rate i := draw_beta g 3 (beta_a (cvr_avg p) (cvr_sd p)) (beta_b (cvr_avg p) (cvr_sd p)) i 0 in
  let! _ := lognormal_checks [val_avg p] (val_item_sd p) in
  let expected_value i := draw_lognormal g 4 (lognormal_mu (val_avg p) (val_item_sd p)) (lognormal_sigma (val_avg p) (val_item_sd p)) i 0 in
  let impressions i j := draw_poisson g 5 (expected_impressions i) i j in
  let clicks i j := draw_binomial g 6 (impressions i j) (expected_ctr i) i j in
  let! _ := lognormal_checks (map expected_cpc (seq 0 items)) (cpc_daily_sd p) in
  let cpc i j := draw_lognormal g 7 (lognormal_mu (expected_cpc i) (cpc_daily_sd p)) (lognormal_sigma (expected_cpc i) (cpc_daily_sd p)) i j in
  let conversions i j := draw_binomial g 8 (clicks i j) (expected_conversion_rate i) i j in
  let! _ := lognormal_checks (map expected_value (seq 0 items)) (val_daily_sd p) in
  let value i j := draw_lognormal g 9 (lognormal_mu (expected_value i) (val_daily_sd p)) (lognormal_sigma (expected_value i) (val_daily_sd p)) i j in
  Ok (List.concat (map (fun i => map (fun jd => let '(j, d) := jd in
        mkSRow d (item_id i) (impressions i j) (clicks i j) (conversions i j)
               (cpc i j * IZR (clicks i j)) (value i j * IZR (conversions i j)))
        (combine (seq 0 (List.length dates)) dates)) (seq 0 items))).

(* ------------------------------------------------------------------ *)
(** Demo effects, data_preparation.py:289-362.  Frames are tables of cells. *)

(** cell == string *)
Definition is_label (s : string) (c : cell) : bool := match c with CStr t => String.eqb s t | _ => false end.
(** cell == integer *)
Definition is_int (k : Z) (c : cell) : bool :=
  match c with CZ z => Z.eqb z k | CNum x => neqb x (Fin (IZR k)) | _ => false end.
(** number * cell; a numeric column holds numbers or missing values.  An integer column becomes a
    float column in pandas; the model keeps untouched cells as they are (same value). *)
Definition scale_cell (k : R) (c : cell) : cell :=
  match c with
  | CZ z => CNum (Fin (IZR z * k))
  | CNum x => CNum (nmul x (Fin k))
  | c => c
  end.

(** lines 330-346 *)
Definition treated_mask (periods assignment : list cell) : list bool :=
  let is_crossover := existsb (is_label "test_1") periods in
  map (fun pa => let '(p, a) := pa in
    if is_crossover then
      orb (andb (orb (is_label "test_1" p) (is_label "washout_1" p)) (is_int 1 a))
          (andb (orb (is_label "test_2" p) (is_label "washout_2" p)) (is_int 0 a))
    else andb (is_label "test" p) (is_int 1 a)) (combine periods assignment).

(** synthetic_data.loc[mask, column] *= k *)
Definition scale_where (mask : list bool) (column : string) (k : R) (f : frame) : result frame :=
  match get_col column f with
  | None => Err (KeyError column)
  | Some v => Ok (set_col column (map (fun mc : bool * cell => if fst mc then scale_cell k (snd mc) else snd mc) (combine mask v)) f)
  end.

(** data_preparation.py:289-362 *)
Definition add_relative_effects (f : frame) (period_col assignment_col : string) (e_imp e_clk e_conv e_val e_cost : R) : result frame :=
  match get_col period_col f with
  | None => Err (KeyError period_col)
  | Some periods =>
      match get_col assignment_col f with
      | None => Err (KeyError assignment_col)
      | Some assignment =>
          let mask := treated_mask periods assignment in
          let! f1 := scale_where mask "impressions" (1 + e_imp) f in
          let! f2 := scale_where mask "clicks" (1 + e_clk) f1 in
          let! f3 := scale_where mask "conversions" (1 + e_conv) f2 in
          let! f4 := scale_where mask "total_conversion_value" (1 + e_val) f3 in
          scale_where mask "total_cost" (1 + e_cost) f4
      end
  end.
