(** Tests of the model, not theorems: the cases of /repo/feedx/statistics_test.py with written out
    numbers, run on the model.  Each example cites the test it repeats. *)
From Coq Require Import ZArith Reals Lra Lia List String Bool Permutation Sorted.
From Flocq Require Import Core BinarySingleNaN.
Require Import Verif.Base Verif.Num Verif.F64 Verif.ListLib Verif.Trimmed_Model Verif.Trimmed_Spec Verif.Stats_Model.
Import ListNotations.
Open Scope string_scope.
Open Scope list_scope.
Open Scope R_scope.

(** statistics_test.py:26-40 *)
Definition input_array : list num := map Fin [5; 7; 17/2; 1; 19/2; 12; 20; 1; 2; 3].
(** an order in which numpy may put it *)
Definition input_order : list nat := [3; 7; 8; 9; 0; 1; 2; 4; 5; 6]%nat.
Definition sorted_input (_ : list num) : list nat := input_order.
Example input_order_is_ascending :
  Permutation input_order (seq 0 10) /\ take input_order input_array = map Fin [1; 1; 2; 3; 5; 7; 17/2; 19/2; 12; 20].
Proof.
  split; [|reflexivity].
  apply NoDup_Permutation; [|apply seq_NoDup|].
  - repeat constructor; simpl; intuition discriminate.
  - intros x. rewrite in_seq. unfold input_order. simpl. lia.
Qed.
Definition trimmed_input : tarray := mkT [input_array] 2 None.
Definition untrimmed_input : tarray := mkT [input_array] 0 None.
Definition winsorized_array : list R := [2; 2; 2; 3; 5; 7; 17/2; 19/2; 19/2; 19/2].
Definition total_of (l : list R) : R := fold_right Rplus 0 l.
Definition mean_of (l : list R) : R := total_of l / INR (List.length l).
Definition sum_of_squares (l : list R) : R := total_of (map (fun x => (x - mean_of l) * (x - mean_of l)) l).

Ltac decide_cmp := first
  [ rewrite Rlt_bool_true by lra | rewrite Rlt_bool_false by lra | rewrite Req_bool_false by lra | rewrite Req_bool_true by lra ].

(** statistics_test.py:42-45 *)
Example test_invalid_quantile :
  map (fun q => mk_trimmed sorted_input [input_array] q) [flit 2 1; flit 1 2; flit (-1) 100] =
  repeat (Err (ValueError "Must use 0 <= quantile < 0.5")) 3.
Proof.
  assert (E : forall q, (fltb q f0 || fgeb q fhalf)%bool = true -> mk_trimmed sorted_input [input_array] q = Err (ValueError "Must use 0 <= quantile < 0.5")).
  { intros q H. unfold mk_trimmed. rewrite H. reflexivity. }
  simpl map. rewrite !E by (vm_compute; reflexivity). reflexivity.
Qed.

(** statistics_test.py:81-89 and 128-135 *)
Example test_number_of_elements_to_trim :
  floor_mul (flit 25 100) 10 = Ok 2%Z /\ floor_mul (flit 1 100) 10 = Ok 0%Z /\
  values_trimmed sorted_input trimmed_input = [map Fin [5; 7; 17/2; 19/2; 2; 3]] /\ t_len sorted_input trimmed_input = 6%nat.
Proof. repeat split; vm_compute; reflexivity. Qed.

Lemma the_trimmed : values_trimmed sorted_input trimmed_input = [map Fin [5; 7; 17/2; 19/2; 2; 3]].
Proof. reflexivity. Qed.
Lemma the_min : forall row, min_value sorted_input trimmed_input row = nth 4 row NaN.
Proof.
  intros row. unfold min_value. rewrite the_trimmed. f_equal. cbn [hd map]. unfold argmin. cbn [arg_best nis_nan orb nltb].
  repeat (decide_cmp; cbn [arg_best nis_nan orb nltb]). reflexivity.
Qed.
Lemma the_max : forall row, max_value sorted_input trimmed_input row = nth 3 row NaN.
Proof.
  intros row. unfold max_value. rewrite the_trimmed. f_equal. cbn [hd map]. unfold argmax. cbn [arg_best nis_nan orb nltb].
  repeat (decide_cmp; cbn [arg_best nis_nan orb nltb]). reflexivity.
Qed.

Lemma ndiv_nonzero : forall a b, b <> 0 -> ndiv (Fin a) (Fin b) = Fin (a / b).
Proof. intros a b H. simpl. rewrite Req_bool_false by exact H. reflexivity. Qed.

(** statistics_test.py:91-98 *)
Example test_mean : t_mean sorted_input trimmed_input = [Fin (mean_of [5; 7; 17/2; 19/2; 2; 3])].
Proof.
  unfold t_mean. rewrite the_trimmed. cbn [map List.length]. f_equal. cbn [nsum fold_right nadd].
  rewrite ndiv_nonzero by (simpl; lra). reflexivity.
Qed.

Lemma wmean_input : wmean_of sorted_input trimmed_input (map Fin [5; 7; 17/2; 19/2; 2; 3]) = Fin (mean_of winsorized_array).
Proof.
  unfold wmean_of. rewrite the_min, the_max. cbn [map nth nsum fold_right nadd nmul t_k trimmed_input].
  change (t_size trimmed_input) with 10%nat. rewrite ndiv_nonzero by (simpl; lra). f_equal. unfold mean_of, total_of, winsorized_array. simpl. lra.
Qed.
(** statistics_test.py:100-109 *)
Example test_winsorized_mean : winsorized_mean sorted_input trimmed_input = [Fin (mean_of winsorized_array)].
Proof. unfold winsorized_mean. rewrite the_trimmed. cbn [map]. f_equal. apply wmean_input. Qed.

(** statistics_test.py:111-126 *)
Example test_variance :
  t_var sorted_input trimmed_input 0 = [Fin (sum_of_squares winsorized_array / 6)] /\
  t_var sorted_input trimmed_input 1 = [Fin (sum_of_squares winsorized_array / 5)].
Proof.
  assert (M : mean_of winsorized_array = 29/5) by (unfold mean_of, total_of, winsorized_array; simpl; lra).
  assert (G : forall ddof, (ddof < 6)%Z -> t_var sorted_input trimmed_input ddof = [Fin (sum_of_squares winsorized_array / IZR (6 - ddof))]).
  { intros ddof Hd. unfold t_var, t_cov. rewrite the_trimmed.
    change (seq 0 (List.length (t_rows trimmed_input))) with [0%nat]. cbn [map nth]. f_equal. change
      (cov_of sorted_input trimmed_input ddof (map Fin [5; 7; 17/2; 19/2; 2; 3]) (map Fin [5; 7; 17/2; 19/2; 2; 3]) =
       Fin (sum_of_squares winsorized_array / IZR (6 - ddof))).
    unfold cov_of. rewrite wmean_input, !the_min, !the_max, M.
    change (t_len sorted_input trimmed_input) with 6%nat.
    unfold ndot. cbn [map nth nsub nneg ndot combine fst snd nmul nsum fold_right nadd t_k trimmed_input].
    rewrite ndiv_nonzero by (apply not_0_IZR; lia). f_equal. change (Z.of_nat 6) with 6%Z. f_equal.
    unfold sum_of_squares, total_of. rewrite M. unfold winsorized_array. simpl. lra. }
  split; [rewrite (G 0%Z) by lia; reflexivity|rewrite (G 1%Z) by lia; reflexivity].
Qed.

(* ------------------------------------------------------------------ *)
(** a result that is the written number up to 1e-12 *)
Definition shows_number (x : num) (c : R) : Prop := exists v, x = Fin v /\ c - 1/1000000000000 <= v <= c + 1/1000000000000.
Lemma sqrt_shows : forall v c, 1/1000000000000 <= c -> 0 <= v ->
  (c - 1/1000000000000) * (c - 1/1000000000000) <= v <= (c + 1/1000000000000) * (c + 1/1000000000000) ->
  shows_number (nsqrt (Fin v)) c.
Proof.
  intros v c Hc Hv [L U]. exists (sqrt v). split.
  { simpl. rewrite Rlt_bool_false by lra. reflexivity. }
  split.
  - rewrite <- (sqrt_square (c - 1/1000000000000)) by lra. apply sqrt_le_1_alt, L.
  - rewrite <- (sqrt_square (c + 1/1000000000000)) by lra. apply sqrt_le_1_alt, U.
Qed.
Ltac some_nonzero := repeat (first [rewrite ndiv_nonzero by lra | progress cbn [nadd nsub nneg nmul nsq]]).

(** statistics_test.py:377-424 *)
Example test_standard_errors_equal_var :
  let '(d, a, b) := two_sample_standard_errors (Fin 2) (Fin 3) (Fin 150) (Fin 200) true in
  shows_number d (2828850408914428 / 10000000000000000) /\ shows_number a (21384099080545574 / 100000000000000000) /\
  shows_number b (18519173040795925 / 100000000000000000).
Proof.
  unfold two_sample_standard_errors, nsq. cbn [nadd nsub nneg nmul]. rewrite !ndiv_nonzero by lra.
  cbn [nadd nsub nneg nmul]. rewrite ?ndiv_nonzero by lra. cbn [nadd].
  replace (150 + 200 + - (2)) with 348 by lra. repeat split; apply sqrt_shows; lra.
Qed.
Example test_standard_errors_unequal_var :
  let '(d, a, b) := two_sample_standard_errors (Fin 2) (Fin 3) (Fin 150) (Fin 200) false in
  shows_number d (26770630673681683 / 100000000000000000) /\ shows_number a (16329931618554522 / 100000000000000000) /\
  shows_number b (21213203435596426 / 100000000000000000).
Proof.
  unfold two_sample_standard_errors, nsq. cbn [nadd nsub nneg nmul]. rewrite !ndiv_nonzero by lra. cbn [nadd].
  repeat split; apply sqrt_shows; lra.
Qed.
(** statistics_test.py:426-433 and 461-481; the second number is compared to seven places there *)
Example test_degrees_of_freedom :
  one_sample_degrees_of_freedom (Fin 150) = Fin (150 - 1) /\
  shows_number (two_sample_degrees_of_freedom (Fin 2) (Fin 3) (Fin 150) (Fin 200) true) 348 /\
  shows_number (two_sample_degrees_of_freedom (Fin 2) (Fin 3) (Fin 150) (Fin 200) false) (3435884999843324 / 10000000000000).
Proof.
  split; [reflexivity|]. unfold two_sample_degrees_of_freedom, nsq. cbn [nadd nsub nneg nmul].
  split; [eexists; split; [reflexivity|lra]|].
  rewrite !ndiv_nonzero by lra. cbn [nadd nmul]. rewrite !ndiv_nonzero by lra. cbn [nadd].
  replace (150 + - (1)) with 149 by lra. replace (200 + - (1)) with 199 by lra.
  match goal with |- shows_number (ndiv (Fin ?a) (Fin ?b)) _ =>
    replace a with (1849 / 360000) by lra; replace b with (31913 / 2134872000) by lra end.
  rewrite ndiv_nonzero by lra. eexists; split; [reflexivity|].
  replace (1849 / 360000 / (31913 / 2134872000)) with (1849 * 2134872000 / (360000 * 31913)) by (field; lra). lra.
Qed.
