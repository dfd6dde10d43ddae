(** Model of /repo/feedx/statistics.py:338-1326: t-tests, confidence intervals, minimum detectable
    effects.

    Representation.  Numbers are [num] (reals, infinities, NaN; rounding ignored, numpy division).
    alpha, power are real numbers.  Student's t distribution (scipy.stats.t) is a parameter, the
    record [tdist]: the two functions of scipy together with the facts used about them. *)
From Coq Require Import ZArith Reals List String Bool.
From Flocq Require Import Core BinarySingleNaN.
Require Import Verif.Base Verif.Num Verif.F64 Verif.ListLib Verif.Trimmed_Model.
Import ListNotations.
Open Scope string_scope.
Open Scope R_scope.

(** degrees of freedom accepted by scipy.stats.t: positive or infinite *)
Definition valid_df (df : num) : bool :=
  match df with Fin v => Rlt_bool 0 v | PInf => true | _ => false end.

(** scipy.stats.t at one number of degrees of freedom (first argument): distribution function and
    quantile function.  Any family of strictly increasing distribution functions symmetric about
    0, with its inverse, is an instance (see [cauchy] in Stats_Props.v). *)
Record tdist : Type := mkTD {
  td_cdf : num -> R -> R;
  td_ppf : num -> R -> R;
  td_incr : forall df x y, valid_df df = true -> x < y -> td_cdf df x < td_cdf df y;
  td_sym : forall df x, valid_df df = true -> td_cdf df (- x) = 1 - td_cdf df x;
  td_range : forall df x, valid_df df = true -> 0 < td_cdf df x < 1;
  td_inv : forall df q, valid_df df = true -> 0 < q < 1 -> td_cdf df (td_ppf df q) = q
}.

(** StatisticalTestResults, statistics.py:338-385 *)
Record tresult : Type := mkTR {
  r_significant : bool;
  r_alpha : R;
  r_p_value : num;
  r_statistic : num;
  r_abs : num;
  r_abs_lower : num;
  r_abs_upper : num;
  r_rel : option num;
  r_rel_lower : option num;
  r_rel_upper : option num;
  r_standard_error : num;
  r_sample_size : nat;
  r_df : num;
  r_control_average : num
}.

Definition bad_alternative : exn := ValueError "Alternative must be one of ['two-sided', 'greater', 'less']".

Definition nsq (x : num) : num := nmul x x.
Definition nnat (n : nat) : num := Fin (INR n).

Section Stats.
Context (T : tdist).

(** stats.t.cdf: NaN outside the parameter domain *)
Definition t_cdf (df x : num) : num :=
  if valid_df df then
    match x with Fin x => Fin (td_cdf T df x) | PInf => Fin 1 | NInf => Fin 0 | NaN => NaN end
  else NaN.

(** stats.t.ppf *)
Definition t_ppf (df : num) (q : R) : num :=
  if valid_df df then
    if andb (Rlt_bool 0 q) (Rlt_bool q 1) then Fin (td_ppf T df q)
    else if Req_bool q 0 then NInf else if Req_bool q 1 then PInf else NaN
  else NaN.

(** statistics.py:388-428; the arguments are numpy floats *)
Definition ttest_from_stats (point_estimate standard_error df : num) (alternative : string) : result (num * num) :=
  let statistic := ndiv point_estimate standard_error in
  if alternative =? "two-sided" then
    Ok (statistic, nmul (Fin 2) (t_cdf df (nmul (Fin (-1)) (nabs statistic))))
  else if alternative =? "greater" then
    Ok (statistic, t_cdf df (nmul (Fin (-1)) statistic))
  else if alternative =? "less" then
    Ok (statistic, t_cdf df statistic)
  else Err bad_alternative.

(** statistics.py:431-505 *)
Definition absolute_difference_confidence_interval (mean_1 mean_2 se_1 se_2 corr df : num)
  (alternative : string) (alpha : R) : result (num * num) :=
  let var_1 := nsq se_1 in
  let var_2 := nsq se_2 in
  let var_12 := nmul (nmul se_1 se_2) corr in
  let diff := nsub mean_1 mean_2 in
  let se := nsqrt (nsub (nadd var_1 var_2) (nmul (Fin 2) var_12)) in
  if alternative =? "two-sided" then
    let t := t_ppf df (1 - alpha / 2) in
    Ok (nsub diff (nmul t se), nadd diff (nmul t se))
  else if alternative =? "greater" then
    let t := t_ppf df (1 - alpha) in
    Ok (nsub diff (nmul t se), PInf)
  else if alternative =? "less" then
    let t := t_ppf df (1 - alpha) in
    Ok (NInf, nadd diff (nmul t se))
  else Err bad_alternative.

(** np.clip(x, a_min=0.0, a_max=None) *)
Definition nclip0 (x : num) : num := if nltb x (Fin 0) then Fin 0 else x.

(** statistics.py:508-634 *)
Definition relative_difference_confidence_interval (mean_1 mean_2 se_1 se_2 corr df : num)
  (alternative : string) (alpha : R) : result (num * num) :=
  let! _ := raise_if (orb (nltb mean_1 (Fin 0)) (nltb mean_2 (Fin 0)))
              (ValueError "Both mean_1 and mean_2 must be >= 0.0") in
  let var_1 := nsq se_1 in
  let var_2 := nsq se_2 in
  let var_12 := nmul (nmul se_1 se_2) corr in
  let t_exclusive_sq :=                                                     (* lines 576-579 *)
    if nisclose var_2 (Fin 0) then PInf else ndiv (nsq mean_2) var_2 in
  let t_complete_sq :=                                                      (* lines 581-586 *)
    if orb (nisclose var_1 (Fin 0)) (nisclose var_2 (Fin 0)) then PInf
    else ndiv (nadd (nsub (nmul (nsq mean_1) var_2)
                          (nmul (nmul (nmul (Fin 2) mean_2) mean_1) var_12))
                    (nmul (nsq mean_2) var_1))
              (nsub (nmul var_1 var_2) (nsq var_12)) in
  let! t :=                                                                 (* lines 588-597 *)
    (if alternative =? "two-sided" then Ok (t_ppf df (1 - alpha / 2))
     else if alternative =? "greater" then Ok (t_ppf df (1 - alpha))
     else if alternative =? "less" then Ok (t_ppf df (1 - alpha))
     else Err bad_alternative) in
  let adjusted_12 := nsub (nmul mean_1 mean_2) (nmul (nsq t) var_12) in
  let adjusted_1 := nsub (nsq mean_1) (nmul (nsq t) var_1) in
  let adjusted_2 := nsub (nsq mean_2) (nmul (nsq t) var_2) in
  let root := nsqrt (nsub (nsq adjusted_12) (nmul adjusted_1 adjusted_2)) in
  let ratio_bounds :=
    if nleb t_complete_sq (nsq t) then (Fin 0, PInf)                        (* lines 603-606 *)
    else
      (nclip0 (ndiv (nsub adjusted_12 root) adjusted_2),                    (* lines 610-615 *)
       if nleb t_exclusive_sq (nsq t) then PInf
       else ndiv (nadd adjusted_12 root) adjusted_2) in
  let lower_bound := nsub (fst ratio_bounds) (Fin 1) in
  let upper_bound := nsub (snd ratio_bounds) (Fin 1) in
  if alternative =? "greater" then Ok (lower_bound, PInf)                   (* lines 629-632 *)
  else if alternative =? "less" then Ok (Fin (-1), upper_bound)
  else Ok (lower_bound, upper_bound).

(** statistics.py:637-646 *)
Definition one_sample_standard_error (sd sample_size : num) : num := ndiv sd (nsqrt sample_size).

(** statistics.py:649-655 *)
Definition one_sample_degrees_of_freedom (sample_size : num) : num := nsub sample_size (Fin 1).

(** statistics.py:658-701 *)
Definition two_sample_standard_errors (sd_1 sd_2 n_1 n_2 : num) (equal_var : bool) : num * num * num :=
  if equal_var then
    let pooled_var := ndiv (nadd (nmul (nsub n_1 (Fin 1)) (nsq sd_1)) (nmul (nsub n_2 (Fin 1)) (nsq sd_2)))
                           (nsub (nadd n_1 n_2) (Fin 2)) in
    (nsqrt (nadd (ndiv pooled_var n_1) (ndiv pooled_var n_2)),
     nsqrt (ndiv pooled_var n_1), nsqrt (ndiv pooled_var n_2))
  else
    (nsqrt (nadd (ndiv (nsq sd_1) n_1) (ndiv (nsq sd_2) n_2)),
     nsqrt (ndiv (nsq sd_1) n_1), nsqrt (ndiv (nsq sd_2) n_2)).

(** statistics.py:704-732 *)
Definition two_sample_degrees_of_freedom (sd_1 sd_2 n_1 n_2 : num) (equal_var : bool) : num :=
  if equal_var then nsub (nadd n_1 n_2) (Fin 2)
  else
    let a := ndiv (nsq sd_1) n_1 in
    let b := ndiv (nsq sd_2) n_2 in
    ndiv (nsq (nadd a b))
         (nadd (ndiv (nsq a) (nsub n_1 (Fin 1))) (ndiv (nsq b) (nsub n_2 (Fin 1)))).

(** statistics.py:735-744 *)
Definition ratio_mean_and_variance (mean_1 mean_2 var_1 var_2 cov_12 : num) : num * num :=
  let ratio_mean := ndiv mean_1 mean_2 in
  (ratio_mean,
   nmul (nsq ratio_mean)
        (nsub (nadd (ndiv var_1 (nsq mean_1)) (ndiv var_2 (nsq mean_2)))
              (ndiv (nmul (Fin 2) cov_12) (nmul mean_1 mean_2)))).

Definition vec (l : list num) (i : nat) : num := nth i l NaN.
Definition mat (M : list (list num)) (i j : nat) : num := vec (nth i M []) j.

(** grad.T @ cov @ grad for a vector and a square matrix of the same size *)
Definition quadratic_form (g : list num) (M : list (list num)) : num :=
  ndot (map (fun j => ndot g (map (fun row => vec row j) M)) (seq 0 (List.length g))) g.

(** statistics.py:747-777: (difference_mean, difference_var, mean_1, mean_2, var_1, var_2, corr_12) *)
Definition difference_of_ratios (m : list num) (cov : list (list num)) : num * num * num * num * num * num * num :=
  let r1 := ratio_mean_and_variance (vec m 0) (vec m 1) (mat cov 0 0) (mat cov 1 1) (mat cov 0 1) in
  let r2 := ratio_mean_and_variance (vec m 2) (vec m 3) (mat cov 2 2) (mat cov 3 3) (mat cov 2 3) in
  let grad := [ndiv (Fin 1) (vec m 1); ndiv (nneg (vec m 0)) (nsq (vec m 1));
               ndiv (Fin (-1)) (vec m 3); ndiv (vec m 2) (nsq (vec m 3))] in
  let difference_var := quadratic_form grad cov in
  let difference_mean := nsub (fst r1) (fst r2) in
  let corr_12 := ndiv (nsub (nadd (snd r1) (snd r2)) difference_var)
                      (nmul (Fin 2) (nsqrt (nmul (snd r1) (snd r2)))) in
  (difference_mean, difference_var, fst r1, fst r2, snd r1, snd r2, corr_12).

(** division of two numpy floats, as a [result] *)
Definition np_div (a b : num) : result num := Ok (ndiv a b).
(** division of two Python floats *)
Definition py_div (a b : num) : result num :=
  if neqb b (Fin 0) then Err (ZeroDivisionError "float division by zero") else Ok (ndiv a b).

(** The common end of the two tests, statistics.py:900-957 (paired) and 1091-1150 (independent):
    the same statements in both; [div] is the division of line 924 / 1117, of numpy floats or of
    Python floats. *)
Definition finish_test (div : num -> num -> result num)
  (abs_diff standard_error mean_1 mean_2 se_1 se_2 corr df : num) (sample_size : nat)
  (alternative : string) (alpha : R) : result tresult :=
  let! sp := ttest_from_stats abs_diff standard_error df alternative in
  let is_significant := nltb (snd sp) (Fin alpha) in
  let! abs_ci := absolute_difference_confidence_interval mean_1 mean_2 se_1 se_2 corr df alternative alpha in
  let! rel :=
    (if andb (nleb (Fin 0) mean_1) (nleb (Fin 0) mean_2) then
       let! ratio := div mean_1 mean_2 in
       let! ci := relative_difference_confidence_interval mean_1 mean_2 se_1 se_2 corr df alternative alpha in
       Ok (Some (nsub ratio (Fin 1)), Some (fst ci), Some (snd ci))
     else Ok (None, None, None)) in
  Ok (mkTR is_significant alpha (snd sp) (fst sp) abs_diff (fst abs_ci) (snd abs_ci)
        (fst (fst rel)) (snd (fst rel)) (snd rel)
        standard_error sample_size df mean_2).

(** statistics.py:840-846 / 1030-1036: are these ratio metrics? *)
Definition ratio_arguments (d1 d2 : option (list num)) : result (option (list num * list num)) :=
  match d1, d2 with
  | Some a, Some b => Ok (Some (a, b))
  | None, None => Ok None
  | _, _ => Err (ValueError "Must pass either both or neither denom_values1 and denom_values2.")
  end.

(** np.stack of one-dimensional arrays *)
Definition np_stack (rows : list (list num)) : result (list (list num)) :=
  let! _ := raise_if (negb (forallb (fun r => Nat.eqb (List.length r) (List.length (hd [] rows))) rows))
              (ValueError "all input arrays must have the same shape") in
  Ok rows.

Section Tests.
Context (argsort : list num -> list nat).

Definition differences (a b : list num) : list num := map (fun p => nsub (fst p) (snd p)) (combine a b).

(** statistics.py:780-957 *)
Definition yuens_t_test_paired (values1 values2 : list num) (q : f64) (denom1 denom2 : option (list num))
  (alternative : string) (alpha : R) : result tresult :=
  let! _ := raise_if (negb (Nat.eqb (List.length values1) (List.length values2)))
              (ValueError "Values1 and values2 must have the same lengths.") in
  let! ratio := ratio_arguments denom1 denom2 in
  match ratio with
  | Some (d1, d2) =>                                                        (* lines 848-878 *)
      let! stacked := np_stack [differences values1 values2; values1; d1; values2; d2] in
      let! t := mk_trimmed argsort stacked q in
      let means := t_mean argsort t in
      let cov := t_cov argsort t 1 in
      let '(diff, diff_var, mean_1, mean_2, var_1, var_2, corr) :=
        difference_of_ratios (tl means) (map (@tl num) (tl cov)) in
      let n := nnat (t_len argsort t) in
      finish_test np_div diff (one_sample_standard_error (nsqrt diff_var) n) mean_1 mean_2
        (one_sample_standard_error (nsqrt var_1) n) (one_sample_standard_error (nsqrt var_2) n)
        corr (one_sample_degrees_of_freedom n) (t_len argsort t) alternative alpha
  | None =>                                                                 (* lines 879-898 *)
      let! stacked := np_stack [differences values1 values2; values1; values2] in
      let! t := mk_trimmed argsort stacked q in
      let means := t_mean argsort t in
      let cov := t_cov argsort t 1 in
      let n := nnat (t_len argsort t) in
      let se := map (fun sd => one_sample_standard_error sd n) (t_std argsort t 1) in
      let corr := ndiv (mat cov 1 2) (nsqrt (nmul (mat cov 1 1) (mat cov 2 2))) in
      finish_test np_div (vec means 0) (vec se 0) (vec means 1) (vec means 2) (vec se 1) (vec se 2)
        corr (one_sample_degrees_of_freedom n) (t_len argsort t) alternative alpha
  end.

(** statistics.py:1075-1091 *)
Definition finish_ind (div : num -> num -> result num) (mean1 mean2 var1 var2 : num) (n1 n2 : nat)
  (equal_var : bool) (alternative : string) (alpha : R) : result tresult :=
  let '(se, se_1, se_2) := two_sample_standard_errors (nsqrt var1) (nsqrt var2) (nnat n1) (nnat n2) equal_var in
  let df := two_sample_degrees_of_freedom (nsqrt var1) (nsqrt var2) (nnat n1) (nnat n2) equal_var in
  finish_test div (nsub mean1 mean2) se mean1 mean2 se_1 se_2 (Fin 0) df (n1 + n2) alternative alpha.

(** statistics.py:960-1150.  For plain metrics the means are Python floats. *)
Definition yuens_t_test_ind (values1 values2 : list num) (q : f64) (denom1 denom2 : option (list num))
  (equal_var : bool) (alternative : string) (alpha : R) : result tresult :=
  let! ratio := ratio_arguments denom1 denom2 in
  match ratio with
  | Some (d1, d2) =>                                                        (* lines 1038-1063 *)
      let! s1 := np_stack [values1; d1] in
      let! s2 := np_stack [values2; d2] in
      let! t1 := mk_trimmed argsort s1 q in
      let! t2 := mk_trimmed argsort s2 q in
      let m1 := t_mean argsort t1 in
      let m2 := t_mean argsort t2 in
      let c1 := t_cov argsort t1 1 in
      let c2 := t_cov argsort t2 1 in
      let r1 := ratio_mean_and_variance (vec m1 0) (vec m1 1) (mat c1 0 0) (mat c1 1 1) (mat c1 0 1) in
      let r2 := ratio_mean_and_variance (vec m2 0) (vec m2 1) (mat c2 0 0) (mat c2 1 1) (mat c2 0 1) in
      finish_ind np_div (fst r1) (fst r2) (snd r1) (snd r2) (t_len argsort t1) (t_len argsort t2)
        equal_var alternative alpha
  | None =>
      let! t1 := mk_trimmed argsort [values1] q in
      let! t2 := mk_trimmed argsort [values2] q in
      finish_ind py_div (vec (t_mean argsort t1) 0) (vec (t_mean argsort t2) 0)
        (vec (t_var argsort t1 1) 0) (vec (t_var argsort t2 1) 0)
        (t_len argsort t1) (t_len argsort t2) equal_var alternative alpha
  end.
End Tests.

(** statistics.py:1153-1196 *)
Definition minimum_detectable_effect_from_stats (standard_error df : num) (alternative : string)
  (power alpha : R) : result num :=
  let! t_alpha :=
    (if alternative =? "two-sided" then Ok (t_ppf df (1 - alpha / 2))
     else if orb (alternative =? "greater") (alternative =? "less") then Ok (t_ppf df (1 - alpha))
     else Err bad_alternative) in
  let t_power := t_ppf df power in
  Ok (nmul standard_error (nadd t_alpha t_power)).

(** statistics.py:1199-1268, with numpy arguments *)
Definition ind_minimum_detectable_effect (sd sample_size : num) (alternative : string) (power alpha : R) : result num :=
  let half := nmul (Fin (1 / 2)) sample_size in
  let '(se, _, _) := two_sample_standard_errors sd sd half half true in
  minimum_detectable_effect_from_stats se (two_sample_degrees_of_freedom sd sd half half true) alternative power alpha.

(** statistics.py:1271-1326 *)
Definition paired_minimum_detectable_effect (sd sample_size : num) (alternative : string) (power alpha : R) : result num :=
  minimum_detectable_effect_from_stats (one_sample_standard_error sd sample_size)
    (one_sample_degrees_of_freedom sample_size) alternative power alpha.
End Stats.
