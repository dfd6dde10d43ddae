(** C81: what the plot of a metric over time shows. *)
From Coq Require Import ZArith Reals Lra Lia String List Bool Sorting.Sorted.
From Flocq Require Import Core BinarySingleNaN.
Require Import Verif.Base Verif.Num Verif.F64 Verif.ListLib Verif.Design_Model Verif.Periods_Model Verif.Trimmed_Model Verif.Trimmed_Spec Verif.Trimmed_Proofs
  Verif.Cuped_Model Verif.Cuped_Props Verif.Moments Verif.Stats_Model Verif.Cupedplot_Model Verif.Cupedplot_Props Verif.Overtime_Model.
Require Verif.Tests_Props.
Import ListNotations.
Open Scope list_scope.
Open Scope R_scope.

(** *** Specification: rows with finite values, known dates and arms *)
Notation arow := (rrow * Z)%type.
Definition orow_of (r : arow) : orow := mkOR (row (fst r)) (Some (snd r)).
(** the rows of a date and an arm *)
Definition on_arm (d a : Z) (rows : list arow) : list rrow :=
  map fst (filter (fun r => andb (Z.eqb (r_date (fst r)) d) (Z.eqb (snd r) a)) rows).
(** squared standard error of the plot: squared deviations divided by the squared number of rows *)
Definition plot_variance (t c : list R) : R := sqdev t / INR (length t) ^ 2 + sqdev c / INR (length c) ^ 2.
(** a point that shows the averages of [t] and [c] and the band of half width z times the standard error *)
Definition shows (z : R) (t c : list R) (p : point) : Prop :=
  pt_treatment p = Fin (avg t) /\ pt_control p = Fin (avg c) /\ pt_delta p = Fin (avg t - avg c) /\
  pt_lb p = Fin (avg t - avg c - z * sqrt (plot_variance t c)) /\ pt_ub p = Fin (avg t - avg c + z * sqrt (plot_variance t c)).
(** the per-date regression coefficient on the pretest totals *)
Definition totals_on (d : Z) (rows : list rrow) : list R := map (fun r => pretest_sum rows (r_item r)) (on d rows).
Definition theta (d : Z) (rows : list rrow) : R := codev (map r_value (on d rows)) (totals_on d rows) / sqdev (totals_on d rows).
Definition adjusted_value (d : Z) (rows : list rrow) (r : rrow) : R :=
  r_value r - theta d rows * (pretest_sum rows (r_item r) - avg (totals_on d rows)).

(** *** Cells *)
Lemma without_nan_fin l : without_nan (map Fin l) = map Fin l.
Proof. unfold without_nan. induction l as [|x l IH]; auto. cbn [map filter nis_nan negb]. now rewrite IH. Qed.
Lemma mean_cell_fin l : l <> [] -> mean_cell (map Fin l) = Fin (avg l).
Proof. intros H. unfold mean_cell. rewrite without_nan_fin. now apply nmean_fin. Qed.
Lemma total_nonneg_sq (f : R -> R) l : 0 <= total (map (fun x => f x ^ 2) l).
Proof. induction l as [|x l IH]; cbn [map total fold_right]; [lra|]. change (0 <= f x ^ 2 + total (map (fun x => f x ^ 2) l)). pose proof (pow2_ge_0 (f x)). lra. Qed.
Lemma sqdev_nonneg l : 0 <= sqdev l.
Proof. unfold sqdev. apply (total_nonneg_sq (fun x => x - avg l)). Qed.
Lemma INR_pos {A} (l : list A) : l <> [] -> 0 < INR (length l).
Proof. intros H. apply lt_0_INR. destruct l; [congruence|simpl; lia]. Qed.

Lemma std_cell_fin l : l <> [] -> std_cell (map Fin l) = Fin (sqrt (sqdev l / INR (length l)) / sqrt (INR (length l))).
Proof.
  intros H. unfold std_cell, np_std. rewrite without_nan_fin, nmean_fin, map_length by exact H. rewrite map_map.
  rewrite (map_ext _ (fun x => Fin ((x - avg l) ^ 2))) by (intros x; cbn; f_equal; ring).
  rewrite <- (map_map (fun x => (x - avg l) ^ 2) Fin), nmean_fin by (destruct l; [congruence|discriminate]).
  assert (P := INR_pos l H). unfold avg at 1. rewrite map_length. fold (sqdev l).
  rewrite nsqrt_fin. 2: { apply Rmult_le_pos; [apply sqdev_nonneg|left; now apply Rinv_0_lt_compat]. }
  unfold nnat. rewrite nsqrt_fin by lra. rewrite ndiv_fin; [reflexivity|]. apply Rgt_not_eq. now apply sqrt_lt_R0.
Qed.
Lemma std_cell_square l : l <> [] -> let s := sqrt (sqdev l / INR (length l)) / sqrt (INR (length l)) in s * s = sqdev l / INR (length l) ^ 2.
Proof.
  intros H s. assert (P := INR_pos l H). unfold s.
  assert (N : 0 <= sqdev l / INR (length l)) by (apply Rmult_le_pos; [apply sqdev_nonneg|left; now apply Rinv_0_lt_compat]).
  assert (Q : sqrt (INR (length l)) <> 0) by (apply Rgt_not_eq; now apply sqrt_lt_R0).
  replace (sqrt (sqdev l / INR (length l)) / sqrt (INR (length l)) * (sqrt (sqdev l / INR (length l)) / sqrt (INR (length l))))
    with ((sqrt (sqdev l / INR (length l)) * sqrt (sqdev l / INR (length l))) / (sqrt (INR (length l)) * sqrt (INR (length l)))) by (field; exact Q).
  rewrite !sqrt_sqrt by lra. field. lra.
Qed.
Lemma empty_mean : mean_cell [] = NaN.
Proof. unfold mean_cell, without_nan, nmean. cbn. rewrite Req_bool_true by reflexivity. unfold ninf_of. now rewrite Rlt_bool_false by lra. Qed.
Lemma empty_std : std_cell [] = NaN.
Proof.
  unfold std_cell, np_std, without_nan, nmean. cbn [filter map nsum List.length INR]. cbn [ndiv]. rewrite Req_bool_true by reflexivity.
  unfold ninf_of. rewrite !Rlt_bool_false by lra. reflexivity.
Qed.
Lemma nan_group_mean n : mean_cell (repeat NaN n) = NaN.
Proof. unfold mean_cell. replace (without_nan (repeat NaN n)) with (@nil num); [apply empty_mean|]. induction n; auto. Qed.

(** *** The groups of one date *)
Lemma group_values_on (g : rrow -> num) d a rows c : length c = length rows ->
  column_on d (map fst rows) c = map g (on d (map fst rows)) ->
  group_values (map orow_of rows) c d a = map g (on_arm d a rows).
Proof.
  unfold group_values, column_on, on_arm, on. revert c. induction rows as [|[r b] rows IH]; intros [|x c] L H; try discriminate L; auto.
  injection L as L. cbn [map combine filter fst] in *. cbn [in_group orow_of o_row o_arm row p_date fst snd].
  rewrite (Z.eqb_sym d). destruct (Z.eqb (r_date r) d).
  - cbn [map snd] in H. injection H as -> H. cbn [andb]. rewrite (Z.eqb_sym a). destruct (Z.eqb b a); cbn [map snd fst]; now rewrite (IH c L H).
  - cbn [andb]. now apply IH.
Qed.
Lemma raw_column d rows : column_on d rows (map (fun r => Fin (r_value r)) rows) = map (fun r => Fin (r_value r)) (on d rows).
Proof.
  unfold column_on, on. induction rows as [|r rows IH]; auto. cbn [map combine filter fst]. destruct (Z.eqb (r_date r) d); cbn [map snd]; now rewrite IH.
Qed.

Lemma point_shows z (g : rrow -> R) d rows c : length c = length rows ->
  column_on d (map fst rows) c = map (fun r => Fin (g r)) (on d (map fst rows)) ->
  on_arm d 1 rows <> [] -> on_arm d 0 rows <> [] ->
  shows z (map g (on_arm d 1 rows)) (map g (on_arm d 0 rows)) (point_at (Fin z) (map orow_of rows) c d).
Proof.
  intros L H H1 H0. unfold point_at, pivot_cell. rewrite !(group_values_on (fun r => Fin (g r)) d _ rows c L H).
  rewrite <- !(map_map g Fin). set (t := map g (on_arm d 1 rows)). set (k := map g (on_arm d 0 rows)).
  assert (T : t <> []) by (unfold t; destruct (on_arm d 1 rows); [congruence|discriminate]).
  assert (K : k <> []) by (unfold k; destruct (on_arm d 0 rows); [congruence|discriminate]).
  rewrite !mean_cell_fin, !std_cell_fin by assumption. cbn [nmul nadd nsub nneg].
  assert (S1 := std_cell_square t T). assert (S0 := std_cell_square k K). cbn zeta in S1, S0. rewrite S1, S0. fold (plot_variance t k).
  rewrite nsqrt_fin. 2: { unfold plot_variance. assert (P1 := INR_pos t T). assert (P0 := INR_pos k K).
    apply Rplus_le_le_0_compat; (apply Rmult_le_pos; [apply sqdev_nonneg|left; apply Rinv_0_lt_compat, pow_lt; assumption]). }
  unfold shows. cbn [pt_treatment pt_control pt_delta pt_lb pt_ub nmul nadd nneg]. repeat split; f_equal; ring.
Qed.

(** *** Dates and arms *)
Lemma known_dates rows : known (map (fun r => p_date (o_row r)) (map orow_of rows)) = map (fun r => r_date (fst r)) rows.
Proof. induction rows as [|r rows IH]; auto. unfold known in *. cbn. now rewrite IH. Qed.
Lemma known_arms rows : known (map o_arm (map orow_of rows)) = map snd rows.
Proof. induction rows as [|r rows IH]; auto. unfold known in *. cbn. now rewrite IH. Qed.
Lemma dates_In d rows : In d (dates_of (map orow_of rows)) <-> exists r, In r rows /\ r_date (fst r) = d.
Proof. unfold dates_of. rewrite zsort_uniq_In, known_dates, in_map_iff. split; intros (r & ? & ?); eauto. Qed.
Lemma arms_In a rows : In a (arms_of (map orow_of rows)) <-> exists r, In r rows /\ snd r = a.
Proof. unfold arms_of. rewrite zsort_uniq_In, known_arms, in_map_iff. split; intros (r & ? & ?); eauto. Qed.
Lemma on_arm_In d a rows : on_arm d a rows <> [] <-> exists r, In r rows /\ r_date (fst r) = d /\ snd r = a.
Proof.
  unfold on_arm. split.
  - intros H. destruct (filter (fun r : arow => andb (Z.eqb (r_date (fst r)) d) (Z.eqb (snd r) a)) rows) as [|r l] eqn:E; [elim H; reflexivity|].
    assert (I : In r (filter (fun r : arow => andb (Z.eqb (r_date (fst r)) d) (Z.eqb (snd r) a)) rows)) by (rewrite E; now left).
    apply filter_In in I as [I J]. apply andb_true_iff in J as [J1 J2]. apply Z.eqb_eq in J1, J2. eauto.
  - intros (r & I & <- & <-) E. apply map_eq_nil in E.
    assert (J : In r (filter (fun r0 : arow => andb (Z.eqb (r_date (fst r0)) (r_date (fst r))) (Z.eqb (snd r0) (snd r))) rows)).
    { apply filter_In. split; auto. now rewrite !Z.eqb_refl. }
    rewrite E in J. destruct J.
Qed.

Lemma kept_mean (g : rrow -> R) d a rows c : length c = length rows ->
  column_on d (map fst rows) c = map (fun r => Fin (g r)) (on d (map fst rows)) ->
  kept mean_cell (map orow_of rows) c d a = true <-> on_arm d a rows <> [].
Proof.
  intros L H. unfold kept, pivot_cell. rewrite (group_values_on (fun r => Fin (g r)) d a rows c L H), <- (map_map g Fin).
  destruct (on_arm d a rows) as [|r l] eqn:E.
  - cbn [map]. rewrite empty_mean. cbn. split; [discriminate|congruence].
  - rewrite mean_cell_fin by discriminate. cbn. split; [discriminate|auto].
Qed.
Lemma kept_std (g : rrow -> R) d a rows c : length c = length rows ->
  column_on d (map fst rows) c = map (fun r => Fin (g r)) (on d (map fst rows)) ->
  kept std_cell (map orow_of rows) c d a = true <-> on_arm d a rows <> [].
Proof.
  intros L H. unfold kept, pivot_cell. rewrite (group_values_on (fun r => Fin (g r)) d a rows c L H), <- (map_map g Fin).
  destruct (on_arm d a rows) as [|r l] eqn:E.
  - cbn [map]. rewrite empty_std. cbn. split; [discriminate|congruence].
  - rewrite std_cell_fin by discriminate. cbn. split; [discriminate|auto].
Qed.
Lemma has_arm_of f d a rows c : on_arm d a rows <> [] -> kept f (map orow_of rows) c d a = true -> pivot_has_arm f (map orow_of rows) c a = true.
Proof.
  intros N K. apply existsb_exists. exists d. split; auto. apply dates_In. apply on_arm_In in N as (r & ? & ? & _). eauto.
Qed.
Lemma in_index f d a rows c : on_arm d a rows <> [] -> kept f (map orow_of rows) c d a = true -> In d (pivot_index f (map orow_of rows) c).
Proof.
  intros N K. apply on_arm_In in N as (r & Hr & Ed & Ea). apply filter_In. split; [apply dates_In; eauto|].
  apply existsb_exists. exists a. split; auto. apply arms_In. eauto.
Qed.
Lemma index_sorted f rows c : StronglySorted Z.lt (pivot_index f rows c).
Proof.
  unfold pivot_index. assert (S := zsort_uniq_sorted (known (map (fun r => p_date (o_row r)) rows))). fold (dates_of rows) in S.
  induction S as [|d l S IH F]; cbn [filter]; [constructor|]. destruct (existsb _ _); auto. constructor; auto.
  apply Forall_forall. intros x Hx. apply filter_In in Hx as [Hx _]. rewrite Forall_forall in F. auto.
Qed.

Definition all_columns (columns : list string) (nm : names) : Prop :=
  forall c, In c [nm_metric nm; nm_item nm; nm_period nm; nm_arm nm; nm_date nm] -> In c columns.
Lemma need_ok columns c : In c columns -> need columns c = Ok tt.
Proof.
  intros H. unfold need, has_name. replace (existsb (String.eqb c) columns) with true; [reflexivity|]. symmetry. apply existsb_exists.
  exists c. split; auto. apply String.eqb_refl.
Qed.
Lemma need_missing columns c : ~ In c columns -> need columns c = Err (KeyError c).
Proof.
  intros H. unfold need, has_name. destruct (existsb (String.eqb c) columns) eqn:E; [|reflexivity].
  apply existsb_exists in E as (x & Hx & E). apply String.eqb_eq in E. now subst.
Qed.

(** *** Without adjustment *)
Theorem c81_raw_values :
  forall argsort empty z columns nm literal rows,
    all_columns columns nm -> In "time_period"%string columns -> In "date"%string columns ->
    (exists r, In r rows /\ snd r = 1%Z) -> (exists r, In r rows /\ snd r = 0%Z) ->
    exists pts, plot_metric_over_time argsort empty (Fin z) columns nm literal (map orow_of rows) false = Ok (pts, plot_start_date literal) /\
      StronglySorted Z.lt (map pt_date pts) /\
      (forall d, In d (map pt_date pts) <-> exists r, In r rows /\ r_date (fst r) = d) /\
      forall p, In p pts ->
        let t := map r_value (on_arm (pt_date p) 1 rows) in let c := map r_value (on_arm (pt_date p) 0 rows) in
        (t <> [] -> c <> [] -> shows z t c p) /\ (t = [] \/ c = [] -> pt_delta p = NaN /\ pt_lb p = NaN /\ pt_ub p = NaN).
Proof.
  intros argsort empty z columns nm literal rows HC HP HD (r1 & H1 & E1) (r0 & H0 & E0).
  set (col := map (fun r => p_value (o_row r)) (map orow_of rows)).
  assert (EC : col = map (fun r => Fin (r_value r)) (map fst rows)) by (unfold col; rewrite !map_map; reflexivity).
  assert (L : length col = length rows) by (rewrite EC, !map_length; reflexivity).
  assert (G : forall d, column_on d (map fst rows) col = map (fun r => Fin (r_value r)) (on d (map fst rows))) by (intros d; rewrite EC; apply raw_column).
  assert (A : forall r, In r rows -> on_arm (r_date (fst r)) (snd r) rows <> []) by (intros r Hr; apply on_arm_In; eauto).
  assert (KM : forall r, In r rows -> kept mean_cell (map orow_of rows) col (r_date (fst r)) (snd r) = true) by (intros r Hr; apply (kept_mean r_value); auto).
  assert (KS : forall r, In r rows -> kept std_cell (map orow_of rows) col (r_date (fst r)) (snd r) = true) by (intros r Hr; apply (kept_std r_value); auto).
  unfold plot_metric_over_time, plotted_column. fold col.
  rewrite !need_ok; try assumption; try (apply HC; cbn; tauto). cbn [bind].
  assert (PA : forall r a, In r rows -> snd r = a -> pivot_has_arm mean_cell (map orow_of rows) col a = true /\ pivot_has_arm std_cell (map orow_of rows) col a = true).
  { intros r a Hr <-. split; apply (has_arm_of _ (r_date (fst r)) (snd r)); auto. }
  destruct (PA r1 1%Z H1 E1) as [-> ->]. destruct (PA r0 0%Z H0 E0) as [-> ->]. cbn [negb raise_if bind].
  eexists. split; [reflexivity|]. rewrite map_map. cbn [point_at pt_date]. rewrite map_id.
  split; [apply index_sorted|]. split.
  - intros d. split; [intros H; apply filter_In in H as [H _]; now apply dates_In|]. intros (r & Hr & <-). eapply in_index; eauto.
  - intros p Hp. apply in_map_iff in Hp as (d & <- & Hd). cbn [point_at pt_date]. cbn zeta. split.
    + intros T C. apply (point_shows z r_value); auto; intros X; [apply T|apply C]; now rewrite X.
    + assert (X : forall a, map r_value (on_arm d a rows) = [] -> pivot_cell mean_cell (map orow_of rows) col d a = NaN).
      { intros a E. unfold pivot_cell. rewrite (group_values_on (fun r => Fin (r_value r)) d a rows col L (G d)), <- (map_map r_value Fin), E. apply empty_mean. }
      intros N. unfold point_at. cbn [pt_delta pt_lb pt_ub].
      replace (nsub (pivot_cell mean_cell (map orow_of rows) col d 1) (pivot_cell mean_cell (map orow_of rows) col d 0)) with NaN; [auto|].
      destruct N as [N|N]; rewrite (X _ N); [reflexivity|]. now destruct (pivot_cell mean_cell (map orow_of rows) col d 1).
Qed.

(** *** Failures *)
(** one of the arms does not occur *)
Theorem c81_missing_arm_raises :
  forall argsort empty z columns nm literal rows a, all_columns columns nm -> a = 1%Z \/ a = 0%Z ->
    (forall r, In r rows -> snd r <> a) ->
    exists k, plot_metric_over_time argsort empty z columns nm literal (map orow_of rows) false = Err (KeyError k) /\ In k ["Treatment"; "Control"]%string.
Proof.
  intros argsort empty z columns nm literal rows a HC Ha H.
  set (col := map (fun r => p_value (o_row r)) (map orow_of rows)).
  assert (EC : col = map (fun r => Fin (r_value r)) (map fst rows)) by (unfold col; rewrite !map_map; reflexivity).
  assert (L : length col = length rows) by (rewrite EC, !map_length; reflexivity).
  assert (N : pivot_has_arm mean_cell (map orow_of rows) col a = false).
  { apply not_true_iff_false. intros X. apply existsb_exists in X as (d & _ & K). apply (kept_mean r_value) in K; auto; [|rewrite EC; apply raw_column].
    apply on_arm_In in K as (r & Hr & _ & E). now apply (H r). }
  unfold plot_metric_over_time, plotted_column. fold col. rewrite (need_ok columns (nm_date nm)), (need_ok columns (nm_metric nm)), (need_ok columns (nm_arm nm)) by (apply HC; cbn; tauto). cbn [bind].
  destruct (pivot_has_arm mean_cell (map orow_of rows) col 1) eqn:P1; cbn [negb raise_if bind]; [|eexists; split; [reflexivity|now left]].
  destruct Ha as [-> | ->]; [congruence|]. rewrite N. cbn [negb raise_if bind]. eexists. split; [reflexivity|right; now left].
Qed.

(** the names of the date and period columns can be passed, but only "date" and "time_period" work *)
Theorem c81_other_column_names_raise :
  forall argsort empty z columns nm literal rows cuped, ~ In "time_period"%string columns \/ ~ In "date"%string columns ->
    ~ is_ok (plot_metric_over_time argsort empty z columns nm literal rows cuped).
Proof.
  intros argsort empty z columns nm literal rows cuped H (x & E). unfold plot_metric_over_time in E.
  do 8 (apply bind_ok in E as (? & _ & E)).
  apply bind_ok in E as (? & E1 & E). apply bind_ok in E as (? & E2 & _).
  destruct H as [H|H]; [rewrite (need_missing _ _ H) in E1|rewrite (need_missing _ _ H) in E2]; discriminate.
Qed.

(** *** With the CUPED adjustment *)
Lemma adjusted_column d (rows : list rrow) : sqdev (totals_on d rows) <> 0 ->
  (forall r, In r (on d rows) -> pretest_of rows (r_item r) <> []) ->
  Cupedplot_Props.adjusted (date_values (map row rows) (Some d)) (date_totals (map row rows) (Some d)) =
  map (fun r => Fin (adjusted_value d rows r)) (on d rows).
Proof.
  intros HV HT. set (m := map r_value (on d rows)). set (t := totals_on d rows) in *.
  assert (LM : length m = length t) by (unfold m, t, totals_on; now rewrite !map_length).
  assert (LT : length t = length (on d rows)) by (unfold t, totals_on; now rewrite map_length).
  assert (N2 : (2 <= length m)%nat).
  { rewrite LM. clear - HV. destruct (le_lt_dec 2 (length t)) as [Q|Q]; auto. exfalso. apply HV. clearbody t. clear HV.
    destruct t as [|x [|y t]]; cbn [length] in Q; [reflexivity| |lia]. unfold sqdev, avg. cbn. field. }
  assert (EM : date_values (map row rows) (Some d) = map Fin m) by (unfold date_values, m; rewrite on_rows, !map_map; reflexivity).
  assert (ET : date_totals (map row rows) (Some d) = map Fin t).
  { unfold date_totals, t, totals_on. rewrite on_rows, !map_map. apply map_ext_in. intros r Hr. cbn [row p_item]. rewrite pretest_total_row. specialize (HT r Hr). destruct (pretest_of rows (r_item r)); congruence. }
  rewrite EM, ET. unfold Cupedplot_Props.adjusted. rewrite first_adjustment; auto; [|now rewrite codev_self].
  rewrite <- (map_map (adjusted_value d rows) Fin). f_equal. unfold Cuped_Props.adjusted. rewrite codev_self.
  assert (X : forall (l : list rrow) th av (h : rrow -> R), zip_with (fun x y => x - th * (y - av)) (map r_value l) (map h l) = map (fun r => r_value r - th * (h r - av)) l).
  { unfold zip_with. induction l as [|r l IH]; intros th av h; auto. cbn [map combine fst snd]. now rewrite IH. }
  apply (X (on d rows) _ _ (fun r => pretest_sum rows (r_item r))).
Qed.

(** The average of the two groups is kept and the difference is corrected by the difference of the pretest totals. *)
Theorem c81_adjusted_values :
  forall argsort empty z columns nm literal rows d,
    sorts argsort -> all_columns columns nm -> In "time_period"%string columns -> In "date"%string columns ->
    (exists r, In r rows /\ r_period (fst r) = "pretest"%string) -> length empty = length rows -> (Z.of_nat (length rows) <= 2 ^ 53)%Z ->
    let data := map fst rows in
    (forall r, In r (on d data) -> pretest_of data (r_item r) <> []) -> sqdev (totals_on d data) <> 0 ->
    on_arm d 1 rows <> [] -> on_arm d 0 rows <> [] ->
    exists pts p, plot_metric_over_time argsort empty (Fin z) columns nm literal (map orow_of rows) true = Ok (pts, plot_start_date literal) /\
      In p pts /\ pt_date p = d /\
      shows z (map (adjusted_value d data) (on_arm d 1 rows)) (map (adjusted_value d data) (on_arm d 0 rows)) p /\
      pt_delta p = Fin (avg (map r_value (on_arm d 1 rows)) - avg (map r_value (on_arm d 0 rows)) -
        theta d data * (avg (map (fun r => pretest_sum data (r_item r)) (on_arm d 1 rows)) - avg (map (fun r => pretest_sum data (r_item r)) (on_arm d 0 rows)))).
Proof.
  intros argsort empty z columns nm literal rows d HS HC HP HD (r & Hr & Er) LE HB data HT HV N1 N0.
  destruct (add_cuped_row argsort empty data HS) as (c & EA & LC & A).
  { exists (fst r). split; auto. now apply in_map. } { unfold data. now rewrite map_length. } { unfold data. now rewrite map_length. }
  assert (LC' : length c = length rows) by (rewrite LC; unfold data; apply map_length).
  assert (ND : on d data <> []).
  { apply on_arm_In in N1 as (r1 & H1 & <- & _). intros X. assert (I : In (fst r1) (on (r_date (fst r1)) data)).
    { apply filter_In. split; [now apply in_map|apply Z.eqb_refl]. } rewrite X in I. destruct I. }
  specialize (A d ND). rewrite (adjusted_column d data HV HT) in A.
  assert (EO : map o_row (map orow_of rows) = map row data) by (unfold data; rewrite !map_map; reflexivity).
  assert (EX : existsb is_pretest (map o_row (map orow_of rows)) = true).
  { rewrite EO. apply existsb_exists. exists (row (fst r)). split; [apply in_map; unfold data; now apply in_map|].
    unfold is_pretest. cbn. rewrite Er. reflexivity. }
  assert (KM : forall a, on_arm d a rows <> [] -> kept mean_cell (map orow_of rows) c d a = true) by (intros a; apply (kept_mean (adjusted_value d data)); auto).
  assert (KS : forall a, on_arm d a rows <> [] -> kept std_cell (map orow_of rows) c d a = true) by (intros a; apply (kept_std (adjusted_value d data)); auto).
  eexists. exists (point_at (Fin z) (map orow_of rows) c d). split.
  { unfold plot_metric_over_time, plotted_column. rewrite !need_ok; try assumption; try (apply HC; cbn; tauto). cbn [bind].
    rewrite EX. cbn [negb raise_if bind]. rewrite EO, EA. cbn [bind].
    rewrite (has_arm_of mean_cell d 1), (has_arm_of mean_cell d 0), (has_arm_of std_cell d 1), (has_arm_of std_cell d 0) by auto. cbn [negb raise_if bind]. reflexivity. }
  split. { apply in_map. eapply in_index; eauto. }
  split; [reflexivity|]. assert (S := point_shows z (adjusted_value d data) d rows c LC' A N1 N0). split; [exact S|].
  destruct S as (_ & _ & -> & _). f_equal.
  assert (AV : forall l, l <> [] -> avg (map (adjusted_value d data) l) =
    avg (map r_value l) - theta d data * (avg (map (fun r => pretest_sum data (r_item r)) l) - avg (totals_on d data))).
  { intros l Hl. assert (P := INR_pos l Hl). unfold avg at 1 2 3. rewrite !map_length.
    assert (X : total (map (adjusted_value d data) l) = total (map r_value l) - theta d data * (total (map (fun r => pretest_sum data (r_item r)) l) - INR (length l) * avg (totals_on d data))).
    { clear. induction l as [|x l IH]; [cbn; ring|]. cbn [map length]. rewrite S_INR. unfold total in *. cbn [fold_right]. rewrite IH. unfold adjusted_value at 1. ring. }
    rewrite X. field. lra. }
  rewrite !AV by assumption. ring.
Qed.

(** a date whose adjustment is undefined is not drawn *)
Theorem c81_dates_without_adjustment_are_left_out :
  forall argsort empty z columns nm literal rows pts start d,
    sorts argsort -> (exists r, In r rows /\ r_period (fst r) = "pretest"%string) -> length empty = length rows -> (Z.of_nat (length rows) <= 2 ^ 53)%Z ->
    let data := map fst rows in
    plot_metric_over_time argsort empty (Fin z) columns nm literal (map orow_of rows) true = Ok (pts, start) ->
    (length (on d data) = 1%nat \/ (exists v, forall r, In r (on d data) -> pretest_sum data (r_item r) = v) \/
     exists r, In r (on d data) /\ pretest_of data (r_item r) = []) ->
    ~ In d (map pt_date pts).
Proof.
  intros argsort empty z columns nm literal rows pts start d HS (r & Hr & Er) LE HB data H HU I.
  assert (EO : map o_row (map orow_of rows) = map row data) by (unfold data; rewrite !map_map; reflexivity).
  destruct (c77_dates_without_a_value argsort empty data HS) as (c & EA & A).
  { exists (fst r). split; auto. now apply in_map. } { unfold data. now rewrite map_length. } { unfold data. now rewrite map_length. }
  destruct (add_cuped_row argsort empty data HS) as (c' & EA' & LC & _).
  { exists (fst r). split; auto. now apply in_map. } { unfold data. now rewrite map_length. } { unfold data. now rewrite map_length. }
  assert (c' = c) by congruence. subst c'. clear EA'.
  specialize (A d HU). unfold plot_metric_over_time in H. apply bind_ok in H as (? & _ & H). apply bind_ok in H as (col & EC & H).
  unfold plotted_column in EC. do 4 (apply bind_ok in EC as (? & _ & EC)). rewrite EO, EA in EC. injection EC as <-.
  do 8 (apply bind_ok in H as (? & _ & H)). injection H as <- _. rewrite map_map in I. cbn [point_at pt_date] in I. rewrite map_id in I.
  unfold pivot_index in I. apply filter_In in I as [_ I]. apply existsb_exists in I as (a & _ & K).
  unfold kept, pivot_cell in K.
  assert (X : group_values (map orow_of rows) c d a = map (fun _ => NaN) (on_arm d a rows)).
  { apply (group_values_on (fun _ => NaN)); [rewrite LC; unfold data; apply map_length|]. fold data. rewrite A. clear. induction (on d data); cbn; congruence. }
  rewrite X in K. replace (map (fun _ => NaN) (on_arm d a rows)) with (repeat NaN (length (on_arm d a rows))) in K by (clear; induction (on_arm d a rows); cbn; congruence).
  rewrite nan_group_mean in K. discriminate.
Qed.

(** *** The band *)
(** The band is narrower than the usual one, which divides by the number of items minus one; with one item in each arm it has no width. *)
Definition usual_variance (t c : list R) : R :=
  sqdev t / (INR (length t) * (INR (length t) - 1)) + sqdev c / (INR (length c) * (INR (length c) - 1)).
Theorem c81_band_is_too_narrow :
  forall z t c p, shows z t c p -> 0 < z ->
    (length t = 1%nat -> length c = 1%nat -> pt_lb p = pt_delta p /\ pt_ub p = pt_delta p) /\
    ((2 <= length t)%nat -> (2 <= length c)%nat -> 0 < sqdev t + sqdev c ->
     exists lb ub, pt_lb p = Fin lb /\ pt_ub p = Fin ub /\
       avg t - avg c - z * sqrt (usual_variance t c) < lb /\ lb < ub /\ ub < avg t - avg c + z * sqrt (usual_variance t c)).
Proof.
  intros z t c p (_ & _ & -> & -> & ->) Hz. split.
  - intros Lt Lc. destruct t as [|x [|? t]]; try discriminate Lt. destruct c as [|y [|? c]]; try discriminate Lc.
    assert (V : plot_variance [x] [y] = 0) by (unfold plot_variance, sqdev, avg; cbn; field).
    rewrite V, sqrt_0. split; f_equal; ring.
  - intros Lt Lc HV. eexists. eexists. split; [reflexivity|]. split; [reflexivity|].
    apply le_INR in Lt, Lc. change (INR 2) with 2 in Lt, Lc. set (n := INR (length t)) in *. set (k := INR (length c)) in *.
    assert (S1 := sqdev_nonneg t). assert (S0 := sqdev_nonneg c).
    assert (F : forall q s, 2 <= q -> 0 <= s -> 0 <= s / q ^ 2 /\ s / q ^ 2 <= s / (q * (q - 1)) /\ (0 < s -> 0 < s / q ^ 2 < s / (q * (q - 1)))).
    { intros q s Hq Hs. assert (Q1 : 0 < q * (q - 1)) by nra. assert (Q2 : 0 < q ^ 2) by nra. assert (Q3 : q * (q - 1) < q ^ 2) by nra.
      assert (I2 := Rinv_0_lt_compat _ Q2). assert (I3 : / q ^ 2 < / (q * (q - 1))) by (apply Rinv_lt_contravar; [now apply Rmult_lt_0_compat|assumption]).
      unfold Rdiv. split; [nra|]. split; [nra|]. intros. split; [nra|]. now apply Rmult_lt_compat_l. }
    destruct (F n (sqdev t) Lt S1) as (A1 & A2 & A3). destruct (F k (sqdev c) Lc S0) as (B1 & B2 & B3).
    assert (P : 0 < plot_variance t c < usual_variance t c).
    { unfold plot_variance, usual_variance. fold n k. destruct S1 as [S1|S1].
      - specialize (A3 S1). lra.
      - assert (S0' : 0 < sqdev c) by lra. specialize (B3 S0'). lra. }
    assert (Q : 0 < sqrt (plot_variance t c)) by (apply sqrt_lt_R0; lra).
    assert (Q' : sqrt (plot_variance t c) < sqrt (usual_variance t c)) by (apply sqrt_lt_1; lra).
    nra.
Qed.

(** The adjustment can widen the band: two arms without any variation. *)
Definition steep_rows : list arow :=
  [(mkRR "b" 0 "pretest" 2, 1%Z); (mkRR "c" 0 "pretest" 1, 0%Z); (mkRR "d" 0 "pretest" 3, 0%Z); (mkRR "a" 0 "pretest" 0, 1%Z);
   (mkRR "a" 1 "test" 0, 1%Z); (mkRR "b" 1 "test" 0, 1%Z); (mkRR "c" 1 "test" 10, 0%Z); (mkRR "d" 1 "test" 10, 0%Z)].
Definition plain_names : names := mkNames "clicks" "item_id" "time_period" "treatment" "date".
Definition plain_columns : list string := ["clicks"; "item_id"; "time_period"; "treatment"; "date"]%string.

Lemma steep_theta : theta 1 (map fst steep_rows) = 2 /\ sqdev (totals_on 1 (map fst steep_rows)) = 5 /\ avg (totals_on 1 (map fst steep_rows)) = 3 / 2.
Proof. unfold theta, totals_on. cbn. unfold pretest_sum. cbn. unfold codev, sqdev, avg. cbn. repeat split; field. Qed.

Theorem c81_adjustment_never_widens_the_band_refuted :
  exists rows d, forall argsort z, sorts argsort -> 0 < z ->
    exists raw adjusted p q,
      plot_metric_over_time argsort (repeat NaN (length rows)) (Fin z) plain_columns plain_names [] (map orow_of rows) false = Ok (raw, None) /\ In p raw /\
      plot_metric_over_time argsort (repeat NaN (length rows)) (Fin z) plain_columns plain_names [] (map orow_of rows) true = Ok (adjusted, None) /\ In q adjusted /\
      pt_date p = d /\ pt_date q = d /\ pt_lb p = pt_ub p /\ nltb (pt_lb q) (pt_ub q) = true.
Proof.
  exists steep_rows, 1%Z. intros argsort z HS Hz. destruct steep_theta as (ET & EV & EA).
  assert (HC : all_columns plain_columns plain_names) by (intros c Hc; exact Hc).
  destruct (c81_raw_values argsort (repeat NaN (length steep_rows)) z plain_columns plain_names [] steep_rows HC) as (raw & E1 & _ & D1 & S1);
    [cbn; tauto|cbn; tauto|eexists; split; [left; reflexivity|reflexivity]|eexists; split; [right; left; reflexivity|reflexivity]|].
  assert (I : In 1%Z (map pt_date raw)) by (apply D1; exists (mkRR "a" 1 "test" 0, 1%Z); split; [cbn; tauto|reflexivity]).
  apply in_map_iff in I as (p & Ep & Hp). specialize (S1 p Hp). rewrite Ep in S1. destruct S1 as [S1 _].
  destruct (c81_adjusted_values argsort (repeat NaN (length steep_rows)) z plain_columns plain_names [] steep_rows 1 HS HC) as (adj & q & E2 & Hq & Eq & S2 & _).
  { cbn; tauto. } { cbn; tauto. } { eexists. split; [left; reflexivity|reflexivity]. } { now rewrite repeat_length. } { vm_compute. discriminate. }
  { intros r Hr. cbn in Hr. destruct Hr as [<-|[<-|[<-|[<-|[]]]]]; cbn; discriminate. }
  { rewrite EV. lra. } { cbn. discriminate. } { cbn. discriminate. }
  exists raw, adj, p, q. split; [exact E1|]. split; [exact Hp|]. split; [exact E2|]. split; [exact Hq|]. split; [exact Ep|]. split; [exact Eq|]. split.
  - destruct S1 as (_ & _ & _ & -> & ->); [cbn; discriminate|cbn; discriminate|]. f_equal.
    replace (plot_variance _ _) with 0; [rewrite sqrt_0; ring|]. unfold plot_variance, sqdev, avg. cbn. field.
  - destruct S2 as (_ & _ & _ & -> & ->). apply nltb_fin.
    assert (V : plot_variance (map (adjusted_value 1 (map fst steep_rows)) (on_arm 1 1 steep_rows)) (map (adjusted_value 1 (map fst steep_rows)) (on_arm 1 0 steep_rows)) = 4).
    { unfold adjusted_value. rewrite ET, EA. unfold plot_variance, sqdev, avg, pretest_sum. cbn. field. }
    rewrite V. replace 4 with (2 * 2) by ring. rewrite sqrt_square by lra. nra.
Qed.

(** the hypotheses of the theorems hold for these rows; and a frame with other names cannot be plotted *)
Example c81_example :
  all_columns plain_columns plain_names /\ on_arm 1 1 steep_rows <> [] /\ on_arm 1 0 steep_rows <> [] /\
  plot_metric_over_time (fun _ => []) [] (Fin 2) ["clicks"; "item_id"; "period"; "treatment"; "day"]%string (mkNames "clicks" "item_id" "period" "treatment" "day")
    [] (map orow_of steep_rows) false = Err (KeyError "time_period").
Proof.
  split; [intros c Hc; exact Hc|]. split; [cbn; discriminate|]. split; [cbn; discriminate|].
  assert (EC : map (fun r => p_value (o_row r)) (map orow_of steep_rows) = map (fun r => Fin (r_value r)) (map fst steep_rows)) by reflexivity.
  assert (A : forall a, on_arm 1 a steep_rows <> [] -> pivot_has_arm mean_cell (map orow_of steep_rows) (map (fun r => p_value (o_row r)) (map orow_of steep_rows)) a = true /\
    pivot_has_arm std_cell (map orow_of steep_rows) (map (fun r => p_value (o_row r)) (map orow_of steep_rows)) a = true).
  { intros a Ha. split; apply (has_arm_of _ 1 a); auto; [apply (kept_mean r_value)|apply (kept_std r_value)]; auto; rewrite EC; apply raw_column. }
  destruct (A 1%Z) as [A1 A2]; [cbn; discriminate|]. destruct (A 0%Z) as [B1 B2]; [cbn; discriminate|].
  unfold plot_metric_over_time, plotted_column. rewrite !need_ok by (cbn; tauto). cbn [bind]. rewrite A1, A2, B1, B2. cbn [negb raise_if bind]. reflexivity.
Qed.

Print Assumptions c81_raw_values.
Print Assumptions c81_missing_arm_raises.
Print Assumptions c81_other_column_names_raise.
Print Assumptions c81_adjusted_values.
Print Assumptions c81_dates_without_adjustment_are_left_out.
Print Assumptions c81_band_is_too_narrow.
Print Assumptions c81_adjustment_never_widens_the_band_refuted.
