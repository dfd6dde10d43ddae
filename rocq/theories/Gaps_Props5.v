(** Further theorems found missing by mutation: tests without a standard error (C50), levels outside (0, 1) (C51) and which
    columns the display of the summary moves to its caption (C80). *)
From Coq Require Import ZArith Reals Lra Lia List String Bool Permutation Sorting.Sorted.
From Flocq Require Import Core BinarySingleNaN.
Require Import Verif.Base Verif.Num Verif.NumOrd Verif.F64 Verif.ListLib Verif.Design_Model Verif.Stats_Model Verif.Stats_Num Verif.Stats_Props
  Verif.Simulation_Model Verif.Bars_Model Verif.Summary_Model Verif.Summary_Props.
Import ListNotations.
Open Scope string_scope.
Open Scope list_scope.
Open Scope R_scope.

(** degrees of freedom that have a t-distribution *)
Definition positive_df (df : num) : Prop := df = PInf \/ exists v, df = Fin v /\ 0 < v.
Lemma positive_df_valid df : positive_df df <-> valid_df df = true.
Proof.
  unfold positive_df, valid_df. destruct df as [v| | |]; split; intros H; try discriminate; auto.
  - destruct H as [H|(w & E & L)]; [discriminate|]. injection E as ->. now apply Rlt_bool_true.
  - right. exists v. split; auto. destruct (Rlt_bool_spec 0 v); [auto|discriminate].
  - destruct H as [H|(w & E & L)]; discriminate.
  - destruct H as [H|(w & E & L)]; discriminate.
Qed.

(** C50: an estimate without standard error is infinitely far from 0 *)
Theorem c50_without_standard_error :
  forall T df x, positive_df df ->
    (0 < x ->
       ttest_from_stats T (Fin x) (Fin 0) df "two-sided" = Ok (PInf, Fin 0) /\
       ttest_from_stats T (Fin x) (Fin 0) df "greater" = Ok (PInf, Fin 0) /\
       ttest_from_stats T (Fin x) (Fin 0) df "less" = Ok (PInf, Fin 1)) /\
    (x < 0 ->
       ttest_from_stats T (Fin x) (Fin 0) df "two-sided" = Ok (NInf, Fin 0) /\
       ttest_from_stats T (Fin x) (Fin 0) df "greater" = Ok (NInf, Fin 1) /\
       ttest_from_stats T (Fin x) (Fin 0) df "less" = Ok (NInf, Fin 0)) /\
    forall alternative, In alternative ["two-sided"; "greater"; "less"] ->
      ttest_from_stats T (Fin 0) (Fin 0) df alternative = Ok (NaN, NaN).
Proof.
  intros T df x V. apply positive_df_valid in V.
  assert (N0 : forall y, nmul (Fin 2) (Fin y) = Fin (2 * y)) by reflexivity.
  assert (C : t_cdf T df PInf = Fin 1 /\ t_cdf T df NInf = Fin 0 /\ t_cdf T df NaN = NaN) by (unfold t_cdf; rewrite V; auto).
  destruct C as (C1 & C2 & C3).
  assert (DV : forall y, ndiv (Fin y) (Fin 0) = ninf_of y) by (intros; cbn [ndiv]; now rewrite Req_bool_true).
  assert (D0 : ndiv (Fin 0) (Fin 0) = NaN) by (rewrite DV; unfold ninf_of; now rewrite !Rlt_bool_false by lra).
  split; [|split].
  - intros H. assert (D : ndiv (Fin x) (Fin 0) = PInf) by (rewrite DV; unfold ninf_of; now rewrite Rlt_bool_true).
    unfold ttest_from_stats. cbn [String.eqb Ascii.eqb Bool.eqb]. rewrite D. cbn [nabs]. rewrite nmul_neg1. cbn [nneg].
    rewrite C1, C2, N0, Rmult_0_r. auto.
  - intros H. assert (D : ndiv (Fin x) (Fin 0) = NInf) by (rewrite DV; unfold ninf_of; now rewrite Rlt_bool_false, Rlt_bool_true by lra).
    unfold ttest_from_stats. cbn [String.eqb Ascii.eqb Bool.eqb]. rewrite D. cbn [nabs]. rewrite !nmul_neg1. cbn [nneg].
    rewrite C1, C2, N0, Rmult_0_r. auto.
  - intros a [<-|[<-|[<-|[]]]]; unfold ttest_from_stats; cbn [String.eqb Ascii.eqb Bool.eqb]; rewrite D0; cbn [nabs]; rewrite ?nmul_neg1; cbn [nneg]; now rewrite C3.
Qed.

(** without degrees of freedom there is no p-value *)
Theorem c50_no_degrees_of_freedom_no_p_value :
  forall T df x s alternative, ~ positive_df df -> In alternative ["two-sided"; "greater"; "less"] ->
    ttest_from_stats T x s df alternative = Ok (ndiv x s, NaN).
Proof.
  intros T df x s a V Ha.
  assert (E : forall y, t_cdf T df y = NaN).
  { intros y. unfold t_cdf. destruct (valid_df df) eqn:E; [|reflexivity]. apply positive_df_valid in E. tauto. }
  destruct Ha as [<-|[<-|[<-|[]]]]; unfold ttest_from_stats; cbn [String.eqb Ascii.eqb Bool.eqb]; now rewrite E.
Qed.

(** C51: the interval for the absolute difference at the extreme levels.  [s] is the standard error of the difference. *)
Theorem c51_intervals_at_extreme_levels :
  forall T m1 m2 s1 s2 corr df, positive_df df -> 0 < s1 ^ 2 + s2 ^ 2 - 2 * (s1 * s2 * corr) ->
    let ci := absolute_difference_confidence_interval T (Fin m1) (Fin m2) (Fin s1) (Fin s2) (Fin corr) df in
    (forall alternative, In alternative ["two-sided"; "greater"; "less"] -> ci alternative 0 = Ok (NInf, PInf)) /\
    ci "two-sided" 1 = Ok (Fin (m1 - m2), Fin (m1 - m2)) /\
    ci "greater" 1 = Ok (PInf, PInf) /\ ci "less" 1 = Ok (NInf, NInf) /\
    ci "two-sided" 2 = Ok (PInf, NInf) /\
    (forall level, level < 0 \/ 2 < level -> ci "two-sided" level = Ok (NaN, NaN)).
Proof.
  intros T m1 m2 s1 s2 corr df V P ci. apply positive_df_valid in V.
  set (s := sqrt (s1 ^ 2 + s2 ^ 2 - 2 * (s1 * s2 * corr))).
  assert (S0 : 0 < s) by (now apply sqrt_lt_R0).
  assert (SE : nsqrt (nsub (nadd (nsq (Fin s1)) (nsq (Fin s2))) (nmul (Fin 2) (nmul (nmul (Fin s1) (Fin s2)) (Fin corr)))) = Fin s).
  { unfold nsq, nsub, s. cbn [nmul nadd nsqrt nneg].
    replace (s1 * s1 + s2 * s2 + - (2 * (s1 * s2 * corr))) with (s1 ^ 2 + s2 ^ 2 - 2 * (s1 * s2 * corr)) by ring.
    now rewrite Rlt_bool_false by lra. }
  assert (Q0 : t_ppf T df 0 = NInf).
  { unfold t_ppf. rewrite V, Rlt_bool_false by lra. cbn [andb]. now rewrite Req_bool_true. }
  assert (Q1 : t_ppf T df 1 = PInf).
  { unfold t_ppf. rewrite V, (Rlt_bool_false 1 1) by lra. rewrite andb_false_r, Req_bool_false, Req_bool_true by lra. reflexivity. }
  assert (QH : t_ppf T df (1 / 2) = Fin 0).
  { rewrite t_ppf_fin by (auto; lra). f_equal. assert (X := ppf_opp T df (1 / 2) V ltac:(lra)). replace (1 - 1 / 2) with (1 / 2) in X by lra. lra. }
  assert (QN : forall q, q < 0 \/ 1 < q -> t_ppf T df q = NaN).
  { intros q Hq. unfold t_ppf. rewrite V. replace (Rlt_bool 0 q && Rlt_bool q 1)%bool with false.
    - rewrite !Req_bool_false by lra. reflexivity.
    - symmetry. apply andb_false_iff. destruct Hq; [left|right]; apply Rlt_bool_false; lra. }
  assert (PS : nmul PInf (Fin s) = PInf /\ nmul NInf (Fin s) = NInf).
  { cbn [nmul]. unfold ninf_of. rewrite (Rlt_bool_true 0 s), (Rlt_bool_false 0 (- s)), (Rlt_bool_true (- s) 0) by lra. auto. }
  destruct PS as [PS NS].
  unfold ci, absolute_difference_confidence_interval. rewrite SE. cbn [String.eqb Ascii.eqb Bool.eqb].
  replace (1 - 1 / 2) with (1 / 2) by lra. replace (1 - 1) with 0 by lra. replace (1 - 2 / 2) with 0 by lra.
  rewrite Q0, QH, NS. change (nmul (Fin 0) (Fin s)) with (Fin (0 * s)). rewrite Rmult_0_l.
  split; [|split; [|split; [|split; [|split]]]]; try reflexivity.
  - intros a Ha. replace (1 - 0 / 2) with 1 by lra. replace (1 - 0) with 1 by lra. rewrite Q1, PS.
    destruct Ha as [<-|[<-|[<-|[]]]]; reflexivity.
  - unfold nsub. cbn [nadd nneg]. do 3 f_equal; ring.
  - intros l Hl. rewrite QN by lra. reflexivity.
Qed.

Lemma dget_in k (r : record) v : dget k r = Some v -> In k (map fst r).
Proof.
  induction r as [|[x w] r IH]; [discriminate|]. cbn [dget map fst In]. destruct (String.eqb_spec k x); auto.
Qed.
Lemma dget_filter k f (r : record) : dget k r = None -> dget k (filter f r) = None.
Proof.
  induction r as [|[x w] r IH]; [reflexivity|]. cbn [dget filter]. destruct (String.eqb_spec k x) as [->|N]; [discriminate|].
  intros E. destruct (f (x, w)); cbn [dget]; auto. destruct (String.eqb_spec k x); [congruence|auto].
Qed.

Lemma join_concat l : join l = String.concat ", " l.
Proof.
  induction l as [|x [|y l] IH]; [reflexivity|reflexivity|]. cbn [join String.concat] in *. now rewrite IH.
Qed.

(** C80: the caption can take every parameter of the design except the washout weeks *)
Theorem c80_constants_are_moved_to_the_caption_except_the_washout :
  forall text rows with_validation disp,
    (forall r, In r rows -> map fst (snd r) = table_columns) ->
    format_summary text rows with_validation = Ok disp ->
    exists constants,
      d_caption disp = ("Analysis results of experiment designs where the following design attributes are constant for all designs: " ++
        String.concat ", " (map (fun cv => fst cv ++ " = " ++ text (snd cv)) constants))%string /\
      (forall c v, In (c, v) constants <-> In c design_columns /\ c <> "crossover_washout_weeks" /\ constant_in rows c v) /\
      (forall r c, In r (d_rows disp) -> In c design_columns ->
         (In (clean_name c) (map fst (snd r)) <-> c = "crossover_washout_weeks" \/ forall v, ~ constant_in rows c v)).
Proof.
  intros text rows wv disp H HF.
  destruct (c80_display_loses_nothing text rows wv disp H HF) as (cs & CAP & CST & F).
  assert (ATT : forall c, In c design_attributes <-> In c design_columns /\ c <> "crossover_washout_weeks").
  { intros c. split.
    - intros Hc. assert (D : forallb (fun x => existsb (String.eqb x) design_columns && negb (String.eqb x "crossover_washout_weeks")) design_attributes = true)
        by reflexivity.
      rewrite forallb_forall in D. specialize (D c Hc). apply andb_true_iff in D as [D1 D2]. apply existsb_exists in D1 as (y & D1 & D3).
      apply String.eqb_eq in D3 as <-. split; [exact D1|]. intros ->. discriminate.
    - intros [Hc N]. assert (D : forallb (fun x => existsb (String.eqb x) design_attributes || String.eqb x "crossover_washout_weeks") design_columns = true)
        by reflexivity.
      rewrite forallb_forall in D. specialize (D c Hc). apply orb_true_iff in D as [D|D]; [|apply String.eqb_eq in D; tauto].
      apply existsb_exists in D as (y & D1 & D3). now apply String.eqb_eq in D3 as <-. }
  exists cs. split; [now rewrite <- join_concat|]. split; [intros c v; rewrite CST, ATT; tauto|].
  intros r' c Hr' Hc.
  assert (TC : In c table_columns) by (unfold table_columns; apply in_or_app; now left).
  assert (NV : ~ In c (rate_columns ++ check_columns)).
  { assert (D : forallb (fun x => negb (existsb (String.eqb x) (rate_columns ++ check_columns))) design_columns = true) by reflexivity.
    rewrite forallb_forall in D. specialize (D c Hc). apply negb_true_iff in D. intros X.
    enough (existsb (String.eqb c) (rate_columns ++ check_columns) = true) by congruence.
    apply existsb_exists. exists c. split; [exact X|apply String.eqb_refl]. }
  assert (EX : exists r, In r rows /\ (forall v, dget c (snd r) = Some v ->
      (In (clean_name c) (map fst (snd r')) /\ ~ In c (map fst cs)) \/ (~ In (clean_name c) (map fst (snd r')) /\ In c (map fst cs)))).
  { clear - F Hr' TC NV. induction F as [|r x l l' (_ & _ & _ & A) F IH]; [destruct Hr'|]. destruct Hr' as [->|Hr'].
    - exists r. split; [now left|]. intros v Hv. destruct (A c v Hv TC) as [(B1 & B2 & _)|(B1 & [(w & B2 & _)|[B2 _]])].
      + left. split; auto. now apply (dget_in _ _ v).
      + right. split; auto. apply in_map_iff. exists (c, w). auto.
      + tauto.
    - destruct (IH Hr') as (r0 & I0 & X). exists r0. split; [now right|auto]. }
  destruct EX as (r & Hr & X).
  destruct (dget_some c (snd r)) as (v & Hv); [rewrite (H r Hr); auto|].
  assert (IC : In c (map fst cs) <-> c <> "crossover_washout_weeks" /\ exists v, constant_in rows c v).
  { rewrite in_map_iff. split.
    - intros ((c' & w) & E & I). cbn in E. subst c'. apply CST in I as [I1 I2]. apply ATT in I1. split; [tauto|eauto].
    - intros [N (w & I)]. exists (c, w). split; auto. apply CST. split; auto. now apply ATT. }
  split.
  - intros I. destruct (X v Hv) as [[_ N]|[N _]]; [|tauto].
    destruct (string_dec c "crossover_washout_weeks"); [now left|right]. intros w Hw. apply N, IC. eauto.
  - intros I. destruct (X v Hv) as [[A _]|[_ A]]; auto. apply IC in A as [A (w & B)]. destruct I as [I|I]; [congruence|now apply I in B].
Qed.

(** the titles under which the columns are shown *)
Theorem c80_the_titles :
  map clean_name table_columns =
    ["N Items Before Trimming"; "Runtime Weeks"; "Primary Metric"; "Pretest Weeks"; "Is Crossover"; "Pre Trim Top Percentile";
     "Pre Trim Bottom Percentile"; "Post Trim Percentile"; "Crossover Washout Weeks"; "Alpha"; "Power"; "N Items After Pre Trim";
     "N Items After Post Trim"; "Minimum Detectable Effect"; "Relative Minimum Detectable Effect"; "Simulated False Positive Rate";
     "Simulated Power At Minimum Detectable Effect"; "Null P Value Robustness Check Pass"; "Power Robustness Check Pass";
     "False Positive Rate Robustness Check Pass"; "Aa Point Estimate Robustness Check Pass"; "Ab Point Estimate Robustness Check Pass";
     "All Robustness Checks Pass"].
Proof. reflexivity. Qed.

Lemma column_missing c (rows : list row) r : In r rows -> dget c (snd r) = None -> column_values c rows = Err (KeyError c).
Proof.
  unfold column_values. induction rows as [|x rows IH]; [intros []|]. intros [->|H] E; cbn [mapM].
  - now rewrite E.
  - rewrite IH by auto. destruct (dget c (snd x)); reflexivity.
Qed.
Lemma column_values_or_key_error c (rows : list row) : (exists vs, column_values c rows = Ok vs) \/ column_values c rows = Err (KeyError c).
Proof.
  unfold column_values. induction rows as [|x rows [(vs & IH)|IH]]; cbn [mapM]; [eauto| |].
  - destruct (dget c (snd x)) as [v|]; cbn [bind]; [rewrite IH; cbn [bind]; eauto|auto].
  - destruct (dget c (snd x)) as [v|]; cbn [bind]; [rewrite IH; auto|auto].
Qed.
Lemma constants_missing cols c (rows : list row) r : In c cols -> In r rows -> dget c (snd r) = None ->
  exists k, constant_columns cols rows = Err (KeyError k).
Proof.
  intros Hc Hr E. induction cols as [|c0 cols IH]; [destruct Hc|]. cbn [constant_columns].
  destruct (column_values_or_key_error c0 rows) as [(vs & E0)|E0]; rewrite E0; cbn [bind]; [|eauto].
  destruct Hc as [->|Hc]; [rewrite (column_missing c rows r Hr E) in E0; discriminate|].
  destruct (IH Hc) as (k & ->). cbn [bind]. eauto.
Qed.

(** the display of a table without one of these columns is a KeyError *)
Theorem c80_display_of_a_table_without_a_parameter_fails :
  forall text rows with_validation r c, In r rows -> In c design_columns -> c <> "crossover_washout_weeks" ->
    dget c (snd r) = None -> exists k, format_summary text rows with_validation = Err (KeyError k).
Proof.
  intros text rows wv r c Hr Hc N E.
  assert (A : In c design_attributes).
  { assert (D : forallb (fun x => existsb (String.eqb x) design_attributes || String.eqb x "crossover_washout_weeks") design_columns = true)
      by reflexivity.
    rewrite forallb_forall in D. specialize (D c Hc). apply orb_true_iff in D as [D|D]; [|apply String.eqb_eq in D; tauto].
    apply existsb_exists in D as (y & D1 & D3). now apply String.eqb_eq in D3 as <-. }
  set (rows' := if wv then rows else drop_columns is_validation_column rows).
  assert (I : exists r', In r' rows' /\ dget c (snd r') = None).
  { unfold rows'. destruct wv; [eauto|]. eexists. split; [unfold drop_columns; apply in_map; exact Hr|]. cbn [snd].
    now apply dget_filter. }
  destruct I as (r' & I & E'). destruct (constants_missing _ c rows' r' A I E') as (k & K). exists k.
  assert (Y : extract_constants text rows' = Err (KeyError k)).
  { unfold extract_constants. match goal with |- bind ?X _ = _ => replace X with (@Err (list (string * sval)) (KeyError k)) by (symmetry; exact K); reflexivity end. }
  unfold format_summary. cbv zeta.
  match goal with |- bind ?X _ = _ => replace X with (@Err (list row * string) (KeyError k)) by (symmetry; exact Y); reflexivity end.
Qed.

(** Concrete cases *)
Example c50_certain_example :
  ttest_from_stats cauchy (Fin 5) (Fin 0) PInf "two-sided" = Ok (PInf, Fin 0) /\
  ttest_from_stats cauchy (Fin (-5)) (Fin 0) (Fin 3) "less" = Ok (NInf, Fin 0) /\
  ttest_from_stats cauchy (Fin 5) (Fin 1) (Fin 0) "less" = Ok (Fin 5, NaN).
Proof.
  split; [|split].
  - apply (c50_without_standard_error cauchy PInf 5); [now left|lra].
  - apply (c50_without_standard_error cauchy (Fin 3) (-5)); [right; exists 3; split; [reflexivity|lra]|lra].
  - rewrite (c50_no_degrees_of_freedom_no_p_value cauchy (Fin 0)).
    + rewrite ndiv_fin by lra. do 3 f_equal. field.
    + intros [X|(v & E & L)]; [discriminate|]. injection E as <-. lra.
    + cbn; auto.
Qed.
Example c51_extreme_example :
  absolute_difference_confidence_interval cauchy (Fin 3) (Fin 1) (Fin 1) (Fin 1) (Fin 0) (Fin 9) "two-sided" 0 = Ok (NInf, PInf) /\
  absolute_difference_confidence_interval cauchy (Fin 3) (Fin 1) (Fin 1) (Fin 1) (Fin 0) (Fin 9) "two-sided" 1 = Ok (Fin 2, Fin 2).
Proof.
  destruct (c51_intervals_at_extreme_levels cauchy 3 1 1 1 0 (Fin 9)) as (A & B & _); [right; exists 9; split; [reflexivity|lra]|lra|].
  split; [apply A; cbn; auto|]. rewrite B. do 3 f_equal; lra.
Qed.
Definition one_row : row := (VStr "x", map (fun c => (c, VNone)) table_columns).
Example c80_washout_example : exists disp, format_summary (fun _ => "None") [one_row] true = Ok disp /\
  In "Crossover Washout Weeks" (columns_of (d_rows disp)) /\ ~ In "Power" (columns_of (d_rows disp)).
Proof.
  eexists. split; [reflexivity|]. split; [cbn; tauto|]. cbn. intros X. repeat (destruct X as [X|X]; [discriminate|]). destruct X.
Qed.
Print Assumptions c50_without_standard_error.
Print Assumptions c50_no_degrees_of_freedom_no_p_value.
Print Assumptions c51_intervals_at_extreme_levels.
Print Assumptions c80_constants_are_moved_to_the_caption_except_the_washout.
Print Assumptions c80_the_titles.
Print Assumptions c80_display_of_a_table_without_a_parameter_fails.
