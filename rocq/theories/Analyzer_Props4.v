(** C98: the plots over time of the notebook with the CUPED adjustment, from the raw values. *)
From Coq Require Import ZArith Reals Lra Lia List String Ascii Bool Permutation Sorting.Sorted.
From Flocq Require Import Core BinarySingleNaN.
Require Verif.Bars_Model Verif.Bars_Props Verif.Overtime_Model Verif.Overtime_Props Verif.Cupedplot_Model Verif.Cupedplot_Props Verif.Overtime_Grid.
Require Import Verif.Base Verif.Num Verif.NumOrd Verif.F64 Verif.Frame Verif.ListLib Verif.Design_Model Verif.Design_Spec Verif.Design_Proofs
  Verif.Design_Yaml_Proofs Verif.Design_Props Verif.Trimmed_Model Verif.Trimmed_Spec Verif.Moments Verif.Trimmed_Proofs Verif.Trimmed_Real Verif.Trimmed_Props
  Verif.Cuped_Model Verif.Cuped_Props Verif.Stats_Model Verif.Stats_Num Verif.Stats_Props Verif.Tests_Proofs
  Verif.Tests_Props Verif.Tests_Props2 Verif.Periods_Model Verif.Periods_Proofs Verif.Periods_Props
  Verif.Rows_Model Verif.Rows_Spec Verif.Rows_Proofs Verif.Rows_Props
  Verif.Checks_Model Verif.Checks_Spec Verif.Checks_Proofs Verif.Checks_Props
  Verif.Pivot_Model Verif.Pivot_Spec Verif.Pivot_Proofs Verif.Pivot_Props
  Verif.Analysis_Spec Verif.Analysis_Model Verif.Analysis_Props Verif.Effect_Props Verif.Analysis_Props2
  Verif.Pipeline_Model Verif.Pipeline_Spec Verif.Pipeline_Proofs Verif.Experiment_Props Verif.Assign_Props Verif.Journey_Model Verif.Journey_Proofs
  Verif.Journey_Props Verif.Standard_Model Verif.Standard_Props Verif.Entry_Model Verif.Entry_Proofs Verif.Analyzer_Model Verif.Analyzer_Props Verif.Analyzer_Props2 Verif.Analyzer_Props3.
Import ListNotations.
Open Scope string_scope.
Open Scope list_scope.
Open Scope Z_scope.

(* ------------------------------------------------------------------ *)
(** *** Specification: adjusted values of the raw data *)
Definition real_of (x : num) : R := match x with Fin r => r | _ => 0%R end.
(** what an item has on a day, and before the start *)
Definition on_day (perf : list obs) (value : obs -> num) (day : Z) (i : string) : R :=
  real_of (Rows_Spec.total (fun o => String.eqb (o_item o) i && (o_date o =? day)) value perf).
Definition before_start (perf : list obs) (value : obs -> num) (from start : Z) (i : string) : R :=
  real_of (raw_total perf value i from start).
Definition all_items (assigned : list (string * Z)) : list string := map fst assigned.
Definition arm_items (assigned : list (string * Z)) (a : Z) : list string := map fst (filter (fun ia => Z.eqb (snd ia) a) assigned).
(** the value of a day minus the part explained by the item's total before the start, with the regression coefficient of that day *)
Definition adjusted_on (items : list string) (now pre : string -> R) (i : string) : R :=
  (now i - codev (map now items) (map pre items) / sqdev (map pre items) * (pre i - avg (map pre items)))%R.

Lemma shows_perm z t t' c c' p : Permutation t t' -> Permutation c c' -> Overtime_Props.shows z t c p -> Overtime_Props.shows z t' c' p.
Proof.
  intros P Q. unfold Overtime_Props.shows, Overtime_Props.plot_variance.
  now rewrite (avg_perm _ _ P), (avg_perm _ _ Q), (Overtime_Grid.sqdev_perm _ _ P), (Overtime_Grid.sqdev_perm _ _ Q), (Permutation_length P), (Permutation_length Q).
Qed.

(** a sum of numbers *)
Lemma total_fin {A} (p : A -> bool) (g : A -> num) (h : A -> R) l : (forall x, In x l -> p x = true -> g x = Fin (h x)) ->
  Rows_Spec.total p g l = Fin (Trimmed_Spec.total (map h (filter p l))).
Proof.
  induction l as [|x l IH]; intros H; [reflexivity|]. unfold Rows_Spec.total in *. cbn [fold_right filter].
  rewrite IH by (intros; apply H; auto; now right). destruct (p x) eqn:E.
  - rewrite (H x (or_introl eq_refl) E). reflexivity.
  - cbn [nadd]. f_equal. ring.
Qed.

Section Prepared.
Context by_date binom outer perf assigned d f start concluded neg skip out
  (HP : forall l, Permutation (outer l) l) (HD : mk_design (par d) = Ok d) (PT : 0 < pretest (par d)) (HF : distinct_columns f)
  (HR : forall o, In o perf -> List.length (o_vals o) = List.length (form_columns f))
  (S1 : ~ In "no_nulls" skip) (S2 : ~ In "no_duplicate_items_per_date" skip) (S3 : ~ In "all_metrics_are_finite" skip)
  (S4 : ~ In "experiment_dates_match_design" skip)
  (A1 : exists i, In (i, 1) assigned) (A0 : exists i, In (i, 0) assigned)
  (H : prepare_experiment by_date binom outer perf assigned d (form_columns f) start concluded neg (form_at_least_one f) skip = Ok out).
Let from := start - pretest (par d) * week_ns.
Let value m := raw_value (form_columns f) (form_at_least_one f) m.

Lemma out_keys : NoDup (map (fun r => (e_item r, e_date r)) out).
Proof. exact (prepared_keys_once _ _ _ _ _ _ _ _ _ _ _ _ _ HP S2 H). Qed.
Lemma out_assigned r : In r out -> In (e_item r, e_arm r) assigned /\ seen_date perf (e_date r).
Proof. intros Hr. pose proof H as H'. apply prepare_experiment_ok in H' as (_ & _ & _ & lab & _ & HI); [|exact HP]. apply HI in Hr. tauto. Qed.
Lemma one_arm i a : In (i, a) assigned -> forall b, In (i, b) assigned -> b = a.
Proof.
  intros I b J. assert (E := assigned_once _ _ _ _ _ _ _ _ _ _ _ _ _ HP HR S2 H i a I).
  assert (K : In (i, b) (filter (fun ia => String.eqb (fst ia) i) assigned)) by (apply filter_In; split; auto; apply String.eqb_refl).
  rewrite E in K. destruct K as [[= ->]|[]]. reflexivity.
Qed.
Lemma assigned_NoDup : NoDup (map fst assigned).
Proof.
  assert (E : forall i a, In (i, a) assigned -> filter (fun ia => String.eqb (fst ia) i) assigned = [(i, a)]) by (intros; now apply (assigned_once _ _ _ _ _ _ _ _ _ _ _ _ _ HP HR S2 H)).
  clear - E. induction assigned as [|[i a] l IH]; [constructor|]. cbn [map fst].
  assert (N : filter (fun ia : string * Z => String.eqb (fst ia) i) l = []).
  { specialize (E i a (or_introl eq_refl)). cbn [filter fst] in E. rewrite String.eqb_refl in E. now injection E. }
  constructor.
  - intros J. apply in_map_iff in J as ([j b] & X & J). cbn in X. subst j.
    assert (K : In (i, b) (filter (fun ia : string * Z => String.eqb (fst ia) i) l)) by (apply filter_In; split; auto; apply String.eqb_refl). rewrite N in K. destruct K.
  - apply IH. intros j b J. specialize (E j b (or_intror J)). cbn [filter fst] in E. destruct (String.eqb_spec i j) as [->|]; auto.
    exfalso. assert (K : In (j, b) (filter (fun ia : string * Z => String.eqb (fst ia) j) l)) by (apply filter_In; split; auto; apply String.eqb_refl). rewrite N in K. destruct K.
Qed.
Lemma out_covers i a day : In (i, a) assigned -> seen_date perf day -> exists r, In r out /\ e_item r = i /\ e_arm r = a /\ e_date r = day.
Proof.
  intros I S. destruct (prepare_experiment_covers _ _ _ _ _ _ _ _ _ _ _ _ _ HP H i day) as (r & Hr & Ei & Ed); [eauto|exact S|].
  exists r. split; auto. split; auto. split; auto. apply (one_arm i a I). rewrite <- Ei. now apply out_assigned.
Qed.
(** the rows of the pretest are those before the start *)
Lemma out_pretest r : In r out -> (e_period r = Some "pretest" <-> e_date r < start) /\ from <= e_date r.
Proof.
  intros Hr. destruct (c78_prepared_dates_lie_in_the_experiment _ _ _ _ _ _ _ _ _ _ _ _ _ HP HD S1 S2 H) as (RNG & _ & _).
  assert (B := RNG _ (proj2 (out_assigned r Hr))). fold from in B. split; [|lia].
  pose proof H as H'. apply prepare_experiment_ok in H' as (_ & _ & _ & lab & L & HI); [|exact HP].
  apply HI in Hr as (_ & _ & IW & _ & EP & _). rewrite EP. unfold in_week in IW.
  destruct (spans_label (par d) d lab "pretest" (- pretest (par d)) (pretest (par d)) HD L (or_introl eq_refl)) as (_ & _ & _ & _ & LB).
  rewrite LB. unfold from in B. assert (W : 0 < week_ns) by reflexivity. nia.
Qed.
Lemma out_total m i a (P : Z -> bool) : In m (plotted_columns f) -> In (i, a) assigned ->
  Rows_Spec.total (fun o => String.eqb (o_item o) i && P (o_date o)) (value m) perf =
  Fin (Trimmed_Spec.total (map (value_of m) (filter (fun r => String.eqb (e_item r) i && P (e_date r)) out))).
Proof.
  intros Hm I. destruct (form_fresh f HF) as (ND & FI & _).
  unfold value. rewrite <- (prepared_total _ _ _ _ _ _ _ _ _ _ _ _ _ HP ND FI HR S2 H i a m P I Hm).
  rewrite (total_fin _ _ (value_of m)).
  - do 3 f_equal. apply filter_ext_in. intros r Hr. destruct (String.eqb_spec (e_item r) i) as [E|E]; cbn [andb]; auto.
    replace (e_arm r) with a; [now rewrite Z.eqb_refl|]. symmetry. apply (one_arm i a I). rewrite <- E. now apply out_assigned.
  - intros r Hr _. destruct (prepared_numbers _ _ _ _ _ _ _ _ _ _ _ _ HP HF HR S3 H r m Hr Hm) as (x & E). unfold col_of, value_of. now rewrite E.
Qed.
Lemma out_value m r : In m (plotted_columns f) -> In r out -> value_of m r = on_day perf (value m) (e_date r) (e_item r).
Proof.
  intros Hm Hr. unfold on_day. rewrite (out_total m (e_item r) (e_arm r) (fun x => x =? e_date r) Hm) by now apply out_assigned.
  assert (F : filter (fun q => String.eqb (e_item q) (e_item r) && (e_date q =? e_date r)) out = [r]).
  { assert (K := out_keys). clear - Hr K. induction out as [|q l IH]; [destruct Hr|]. cbn [map] in K. apply NoDup_cons_iff in K as [N K]. cbn [filter].
    assert (Z : forall p, In p l -> e_item p = e_item q -> e_date p = e_date q -> False).
    { intros p Hp E1 E2. apply N. apply in_map_iff. exists p. split; [congruence|exact Hp]. }
    destruct Hr as [->|Hr].
    - rewrite String.eqb_refl, Z.eqb_refl. cbn [andb]. f_equal. apply filter_none. intros p Hp. apply andb_false_iff.
      destruct (String.eqb_spec (e_item p) (e_item r)) as [E1|]; auto. right. apply Z.eqb_neq. intros E2. exact (Z p Hp E1 E2).
    - destruct (String.eqb_spec (e_item q) (e_item r)) as [E1|]; cbn [andb]; [|now apply IH].
      destruct (Z.eqb_spec (e_date q) (e_date r)) as [E2|]; [|now apply IH]. exfalso. apply (Z r Hr); congruence. }
  rewrite F. cbn. ring.
Qed.
Lemma out_before m i a : In m (plotted_columns f) -> In (i, a) assigned ->
  Cupedplot_Props.pretest_sum (map fst (map (real_row m) out)) i = before_start perf (value m) from start i.
Proof.
  intros Hm I. unfold before_start, raw_total.
  rewrite (total_ext _ (fun o => String.eqb (o_item o) i && ((from <=? o_date o) && (o_date o <? start))) _ (value m)) by (intros; rewrite andb_assoc; auto).
  rewrite (out_total m i a (fun x => (from <=? x) && (x <? start)) Hm I). cbn [real_of].
  unfold Cupedplot_Props.pretest_sum. change (fold_right Rplus 0%R) with Trimmed_Spec.total. f_equal.
  unfold Cupedplot_Props.pretest_of. rewrite map_map.
  assert (G : forall l, (forall r, In r l -> In r out) ->
    map Cupedplot_Props.r_value (filter (fun r => if string_dec (Cupedplot_Props.r_period r) "pretest" then if string_dec (Cupedplot_Props.r_item r) i then true else false else false)
      (map (fun x => fst (real_row m x)) l)) = map (value_of m) (filter (fun r => String.eqb (e_item r) i && ((from <=? e_date r) && (e_date r <? start))) l)).
  { induction l as [|r l IH]; intros Hl; [reflexivity|]. cbn [map filter]. specialize (IH (fun q Hq => Hl q (or_intror Hq))).
    destruct (out_pretest r (Hl r (or_introl eq_refl))) as [E B]. cbn [real_row fst Cupedplot_Props.r_period Cupedplot_Props.r_item].
    replace (from <=? e_date r) with true by (symmetry; now apply Z.leb_le). cbn [andb].
    destruct (e_period r) as [s|].
    - destruct (string_dec s "pretest") as [->|N].
      + replace (e_date r <? start) with true by (symmetry; apply Z.ltb_lt; now apply E). rewrite andb_true_r.
        destruct (String.eqb_spec (e_item r) i) as [Ei|Ei]; destruct (string_dec (e_item r) i); try congruence; auto. cbn [map]. f_equal. exact IH.
      + replace (e_date r <? start) with false; [rewrite andb_false_r; exact IH|]. symmetry. apply Z.ltb_ge. destruct (Z_lt_ge_dec (e_date r) start) as [L|G]; [|lia].
        apply E in L. congruence.
    - destruct (string_dec "" "pretest") as [X|_]; [discriminate|]. replace (e_date r <? start) with false; [rewrite andb_false_r; exact IH|].
      symmetry. apply Z.ltb_ge. destruct (Z_lt_ge_dec (e_date r) start) as [L|G]; [|lia]. apply E in L. discriminate. }
  apply G. auto.
Qed.

(** the grid of one metric *)
Section Metric.
Context m (Hm : In m (plotted_columns f)).
Let rows := map (real_row m) out.
Lemma g_keys : NoDup (map (fun r => (Cupedplot_Props.r_item (fst r), Cupedplot_Props.r_date (fst r))) rows).
Proof. unfold rows. rewrite map_map. exact out_keys. Qed.
Lemma g_row r : In r rows -> In (Cupedplot_Props.r_item (fst r), snd r) assigned /\ seen_date perf (Cupedplot_Props.r_date (fst r)) /\
  Cupedplot_Props.r_value (fst r) = on_day perf (value m) (Cupedplot_Props.r_date (fst r)) (Cupedplot_Props.r_item (fst r)) /\
  (Cupedplot_Props.r_period (fst r) = "pretest" <-> (Cupedplot_Props.r_date (fst r) <? start) = true).
Proof.
  intros Hr. apply in_map_iff in Hr as (q & <- & Hq). cbn [real_row fst snd Cupedplot_Props.r_item Cupedplot_Props.r_date Cupedplot_Props.r_value Cupedplot_Props.r_period].
  destruct (out_assigned q Hq) as [B1 B2]. split; auto. split; auto. split; [exact (out_value m q Hm Hq)|].
  destruct (out_pretest q Hq) as [E _]. rewrite Z.ltb_lt, <- E. destruct (e_period q); split; congruence.
Qed.
Lemma g_full i a day : In (i, a) assigned -> seen_date perf day -> exists r, In r rows /\ Cupedplot_Props.r_item (fst r) = i /\ snd r = a /\ Cupedplot_Props.r_date (fst r) = day.
Proof. intros I S. destruct (out_covers i a day I S) as (r & Hr & E1 & E2 & E3). exists (real_row m r). split; [now apply in_map|auto]. Qed.
Lemma g_early : exists day, seen_date perf day /\ (day <? start) = true.
Proof.
  destruct (c78_prepared_dates_lie_in_the_experiment _ _ _ _ _ _ _ _ _ _ _ _ _ HP HD S1 S2 H) as (_ & _ & MX). destruct (MX S4) as [S _].
  exists (start - pretest (par d) * week_ns). split; auto. apply Z.ltb_lt. assert (W : 0 < week_ns) by reflexivity. nia.
Qed.
Lemma g_cols : Overtime_Props.all_columns (columns (prepared_frame out)) (notebook_names m) /\ In "time_period" (columns (prepared_frame out)) /\ In "date" (columns (prepared_frame out)).
Proof.
  assert (NM := prepared_names _ _ _ _ _ _ _ _ _ _ _ _ HP HF HR H). assert (NE := prepared_some _ _ _ _ _ _ _ _ _ _ _ _ HP HR H).
  split; [|split; apply frame_columns; left; cbn; tauto].
  intros c Hc. apply frame_columns. cbn in Hc. destruct Hc as [<-|Hc]; [|left; cbn; tauto].
  right. destruct out as [|r l]; [congruence|]. exists r, l. split; auto. now rewrite (NM r (or_introl eq_refl)).
Qed.
Lemma g_differ : Overtime_Grid.differ rows assigned <->
  exists i j, In i (all_items assigned) /\ In j (all_items assigned) /\ before_start perf (value m) from start i <> before_start perf (value m) from start j.
Proof.
  unfold Overtime_Grid.differ, Overtime_Grid.named, Overtime_Grid.before.
  assert (G : forall i, In i (map fst assigned) -> Cupedplot_Props.pretest_sum (map fst rows) i = before_start perf (value m) from start i).
  { intros i Hi. apply in_map_iff in Hi as ([j a] & <- & I). now apply (out_before m j a). }
  split; intros (i & j & I & J & N); exists i, j; (split; [exact I|split; [exact J|]]).
  - now rewrite <- !G. - now rewrite !G.
Qed.
Lemma g_before i a : In (i, a) assigned -> Overtime_Grid.before rows i = before_start perf (value m) from start i.
Proof. intros I. now apply (out_before m i a). Qed.
End Metric.
End Prepared.

(* ------------------------------------------------------------------ *)
(** *** The properties *)
Definition adjustable (perf : list obs) (assigned : list (string * Z)) (value : obs -> num) (from start : Z) : Prop :=
  exists i j, In i (all_items assigned) /\ In j (all_items assigned) /\ before_start perf value from start i <> before_start perf value from start j.

(** what the plot of one metric shows: every observed date, in order, and on each date the adjusted values of the two arms *)
Definition adjusted_plot (z : R) (perf : list obs) (assigned : list (string * Z)) (value : obs -> num) (from start : Z) (pts : list Overtime_Model.point) : Prop :=
  StronglySorted Z.lt (map Overtime_Model.pt_date pts) /\
  (forall day, In day (map Overtime_Model.pt_date pts) <-> seen_date perf day) /\
  (forall p, In p pts ->
     let adj := adjusted_on (all_items assigned) (on_day perf value (Overtime_Model.pt_date p)) (before_start perf value from start) in
     Overtime_Props.shows z (map adj (arm_items assigned 1)) (map adj (arm_items assigned 0)) p).

Section Statements.
Context argsort (empty : list num) (z : R) by_date binom outer perf assigned d f start concluded neg skip out
  (HP : forall l, Permutation (outer l) l) (SO : sorts argsort) (HD : mk_design (par d) = Ok d) (PT : 0 < pretest (par d)) (HF : distinct_columns f)
  (HR : forall o, In o perf -> List.length (o_vals o) = List.length (form_columns f))
  (HS : forall n, In n ["no_nulls"; "no_duplicate_items_per_date"; "all_metrics_are_finite"; "experiment_dates_match_design"] -> ~ In n skip)
  (A1 : exists i, In (i, 1) assigned) (A0 : exists i, In (i, 0) assigned)
  (H : prepare_experiment by_date binom outer perf assigned d (form_columns f) start concluded neg (form_at_least_one f) skip = Ok out)
  (LE : List.length empty = List.length out) (LB : Z.of_nat (List.length out) <= 2 ^ 53).
Let from := start - pretest (par d) * week_ns.
Let value m := raw_value (form_columns f) (form_at_least_one f) m.
Let plot m := Overtime_Model.plot_metric_over_time argsort empty (Fin z) (columns (prepared_frame out)) (notebook_names m)
                (map (fun r => (e_date r, e_period r)) out) (map (plot_row m) out) true.

Lemma plot_drawn m : In m (plotted_columns f) -> adjustable perf assigned (value m) from start ->
  exists pts s, plot m = Ok (pts, s) /\ adjusted_plot z perf assigned (value m) from start pts /\
    nsum (map Overtime_Model.pt_delta (filter (fun p => Overtime_Model.pt_date p <? start) pts)) = Fin 0.
Proof.
  intros Hm AD. unfold plot.
  assert (N1 := HS "no_nulls" ltac:(cbn; tauto)). assert (N2 := HS "no_duplicate_items_per_date" ltac:(cbn; tauto)).
  assert (N3 := HS "all_metrics_are_finite" ltac:(cbn; tauto)). assert (N4 := HS "experiment_dates_match_design" ltac:(cbn; tauto)).
  rewrite (plot_row_real m out) by (intros; now apply (prepared_numbers _ _ _ _ _ _ _ _ _ _ _ _ HP HF HR N3 H)).
  assert (K := g_keys _ _ _ _ _ _ _ _ _ _ _ _ HP N2 H m).
  assert (O := assigned_NoDup _ _ _ _ _ _ _ _ _ _ _ _ HP HR N2 H).
  assert (RW := g_row _ _ _ _ _ _ _ _ _ _ _ _ HP HD HF HR N1 N2 N3 H m Hm).
  assert (FU := g_full _ _ _ _ _ _ _ _ _ _ _ _ HP HR N2 H m).
  assert (EA := g_early _ _ _ _ _ _ _ _ _ _ _ _ HP HD PT N1 N2 N4 H).
  assert (CO := g_cols _ _ _ _ _ _ _ _ _ _ _ _ HP HF HR H m Hm).
  assert (GB := fun i a => g_before _ _ _ _ _ _ _ _ _ _ _ _ HP HD HF HR N1 N2 N3 H m Hm i a).
  assert (DF := proj2 (g_differ _ _ _ _ _ _ _ _ _ _ _ _ HP HD HF HR N1 N2 N3 H m Hm) AD).
  set (rows := map (real_row m) out) in *.
  assert (BN : forall l, (forall i, In i l -> exists a, In (i, a) assigned) -> map (Overtime_Grid.before rows) l = map (before_start perf (value m) from start) l).
  { intros l Hl. apply map_ext_in. intros i Hi. destruct (Hl i Hi) as (a & I). now apply (GB i a). }
  assert (IN : forall i, In i (all_items assigned) -> exists a, In (i, a) assigned) by (intros i Hi; apply in_map_iff in Hi as ([j a] & <- & I); now exists a).
  assert (IA : forall b i, In i (arm_items assigned b) -> exists a, In (i, a) assigned) by (intros b i Hi; apply in_map_iff in Hi as ([j a] & <- & I); apply filter_In in I as [I _]; now exists a).
  destruct (Overtime_Grid.grid_drawn rows assigned (seen_date perf) (on_day perf (value m)) (fun x => x <? start) K O RW FU EA A1 A0
    argsort empty z (columns (prepared_frame out)) (notebook_names m) (map (fun r => (e_date r, e_period r)) out) SO CO) as (pts & E & ST & DT & SH); auto.
  { unfold rows. now rewrite map_length. } { unfold rows. now rewrite map_length. }
  rewrite E. eexists _, _. split; [reflexivity|]. split; [split; [exact ST|split; [exact DT|]]|].
  - intros p Hp adj. set (day := Overtime_Model.pt_date p) in *. assert (S : seen_date perf day) by (apply DT; now apply in_map).
    destruct (SH p Hp) as [SH1 _]. revert SH1.
    assert (Q : forall a, Permutation (map (Overtime_Props.adjusted_value day (map fst rows)) (Overtime_Props.on_arm day a rows)) (map adj (arm_items assigned a))).
    { intros a. assert (X : map (Overtime_Props.adjusted_value day (map fst rows)) (Overtime_Props.on_arm day a rows) =
        map adj (map Cupedplot_Props.r_item (Overtime_Props.on_arm day a rows))).
      { rewrite map_map. apply map_ext_in. intros q Hq. unfold Overtime_Props.adjusted_value, adj, adjusted_on, Overtime_Props.theta.
        apply in_map_iff in Hq as (r & <- & Hr). apply filter_In in Hr as [Hr Y]. apply andb_true_iff in Y as [Y _]. apply Z.eqb_eq in Y.
        destruct (RW r Hr) as (I & _ & EV & _). rewrite EV, Y.
        assert (DI := Overtime_Grid.day_items rows assigned (seen_date perf) (on_day perf (value m)) (fun x => x <? start) K O RW FU day S).
        rewrite (Overtime_Grid.on_value rows assigned (seen_date perf) (on_day perf (value m)) (fun x => x <? start) RW day), (Overtime_Grid.totals_value rows day).
        rewrite (Overtime_Grid.codev_perm _ _ _ _ DI), (Overtime_Grid.sqdev_perm _ _ (Permutation_map (Overtime_Grid.before rows) DI)), (avg_perm _ _ (Permutation_map (Overtime_Grid.before rows) DI)).
        change (Overtime_Grid.named assigned) with (all_items assigned). rewrite (BN _ IN).
        change (Cupedplot_Props.pretest_sum (map fst rows)) with (Overtime_Grid.before rows). now rewrite (GB _ _ I). }
      rewrite X. apply Permutation_map.
      exact (Overtime_Grid.arm_items rows assigned (seen_date perf) (on_day perf (value m)) (fun x => x <? start) K O RW FU day a S). }
    apply shows_perm; apply Q.
  - set (early := filter (fun p => Overtime_Model.pt_date p <? start) pts).
    assert (CA := Overtime_Grid.grid_cancels rows assigned (seen_date perf) (on_day perf (value m)) (fun x => x <? start) K O RW FU EA
      (map Overtime_Model.pt_date early) DF).
    match type of CA with _ -> _ -> Trimmed_Spec.total (map ?g _) = _ => set (delta := g) in CA end.
    assert (ED : map Overtime_Model.pt_delta early = map Fin (map delta (map Overtime_Model.pt_date early))).
    { rewrite !map_map. apply map_ext_in. intros p Hp. apply filter_In in Hp as [Hp _]. destruct (SH p Hp) as [_ X]. exact X. }
    rewrite ED.
    assert (NS : forall l, nsum (map Fin l) = Fin (Trimmed_Spec.total l)) by (intros l; unfold nsum; induction l as [|x l IH]; [reflexivity|cbn [map fold_right]; rewrite IH; reflexivity]).
    rewrite NS. f_equal. apply CA.
    + assert (ND : NoDup (map Overtime_Model.pt_date pts)).
      { clear - ST. induction (map Overtime_Model.pt_date pts) as [|x l IH]; [constructor|]. inversion ST as [|? ? S' F]; subst. constructor; auto.
        intros I. rewrite Forall_forall in F. specialize (F x I). lia. }
      unfold early. clear - ND. induction pts as [|p l IH]; [constructor|]. cbn [map] in ND. apply NoDup_cons_iff in ND as [N ND]. cbn [filter].
      destruct (Overtime_Model.pt_date p <? start); auto. cbn [map]. constructor; auto. intros I. apply N. apply in_map_iff in I as (q & Eq & Hq).
      apply filter_In in Hq as [Hq _]. apply in_map_iff. eauto.
    + intros day. unfold early. rewrite in_map_iff, <- DT, in_map_iff. split.
      * intros (p & <- & Hp). apply filter_In in Hp as [Hp X]. split; eauto.
      * intros [(p & <- & Hp) X]. exists p. split; auto. apply filter_In. auto.
Qed.

Lemma plot_not_drawn m : In m (plotted_columns f) -> ~ adjustable perf assigned (value m) from start -> plot m = Err (KeyError "Treatment").
Proof.
  intros Hm AD. unfold plot.
  assert (N1 := HS "no_nulls" ltac:(cbn; tauto)). assert (N2 := HS "no_duplicate_items_per_date" ltac:(cbn; tauto)).
  assert (N3 := HS "all_metrics_are_finite" ltac:(cbn; tauto)). assert (N4 := HS "experiment_dates_match_design" ltac:(cbn; tauto)).
  rewrite (plot_row_real m out) by (intros; now apply (prepared_numbers _ _ _ _ _ _ _ _ _ _ _ _ HP HF HR N3 H)).
  assert (K := g_keys _ _ _ _ _ _ _ _ _ _ _ _ HP N2 H m).
  assert (O := assigned_NoDup _ _ _ _ _ _ _ _ _ _ _ _ HP HR N2 H).
  assert (RW := g_row _ _ _ _ _ _ _ _ _ _ _ _ HP HD HF HR N1 N2 N3 H m Hm).
  assert (FU := g_full _ _ _ _ _ _ _ _ _ _ _ _ HP HR N2 H m).
  assert (EA := g_early _ _ _ _ _ _ _ _ _ _ _ _ HP HD PT N1 N2 N4 H).
  assert (CO := g_cols _ _ _ _ _ _ _ _ _ _ _ _ HP HF HR H m Hm).
  assert (DF : ~ Overtime_Grid.differ (map (real_row m) out) assigned).
  { intros X. apply AD. now apply (g_differ _ _ _ _ _ _ _ _ _ _ _ _ HP HD HF HR N1 N2 N3 H m Hm). }
  apply (Overtime_Grid.grid_not_drawn (map (real_row m) out) assigned (seen_date perf) (on_day perf (value m)) (fun x => x <? start)); auto.
  - now rewrite map_length. - now rewrite map_length.
Qed.
End Statements.

Lemma adjustable_dec perf assigned value from start : adjustable perf assigned value from start \/ ~ adjustable perf assigned value from start.
Proof.
  unfold adjustable. set (g := before_start perf value from start). generalize (all_items assigned). intros l.
  destruct l as [|i l]; [right; intros (i & j & [] & _)|].
  destruct (Exists_dec (fun j => g i <> g j) l) as [E|E].
  - intros j. destruct (Req_EM_T (g i) (g j)); [right; tauto|now left].
  - apply Exists_exists in E as (j & J & Q). left. exists i, j. split; [now left|split; [now right|exact Q]].
  - right. assert (C : forall j, In j (i :: l) -> g j = g i).
    { intros j [->|J]; auto. destruct (Req_EM_T (g i) (g j)) as [Q|Q]; auto. exfalso. apply E, Exists_exists. eauto. }
    intros (j & k & J & K & N). apply N. now rewrite (C j J), (C k K).
Qed.

(** the hypotheses shared by the statements: data prepared for the columns of the form with a design with pretest weeks, checked for
    missing values, repeated items, infinite values and dates that do not fit the design *)
Record prepared_with_pretest (perf : list obs) (assigned : list (string * Z)) (d : design) (f : form) (start : Z) (out : list erow) : Prop := mkPWP {
  pw_design : mk_design (par d) = Ok d;
  pw_pretest : 0 < pretest (par d);
  pw_columns : distinct_columns f;
  pw_rows : forall o, In o perf -> List.length (o_vals o) = List.length (form_columns f);
  pw_treated : exists i, In (i, 1) assigned;
  pw_control : exists i, In (i, 0) assigned;
  pw_prepared : exists by_date binom outer concluded neg skip,
    (forall l, Permutation (outer l) l) /\
    (forall n, In n ["no_nulls"; "no_duplicate_items_per_date"; "all_metrics_are_finite"; "experiment_dates_match_design"] -> ~ In n skip) /\
    prepare_experiment by_date binom outer perf assigned d (form_columns f) start concluded neg (form_at_least_one f) skip = Ok out }.

(** C98.  The adjusted plots are drawn exactly if, for every plotted column, two items differ in their totals before the start;
    otherwise the call fails. *)
Theorem c98_adjusted_plots_come_iff :
  forall argsort empty z perf assigned d f start out,
    sorts argsort -> prepared_with_pretest perf assigned d f start out ->
    List.length empty = List.length out -> Z.of_nat (List.length out) <= 2 ^ 53 ->
    let can m := adjustable perf assigned (raw_value (form_columns f) (form_at_least_one f) m) (start - pretest (par d) * week_ns) start in
    ((exists plots, plots_over_time argsort empty (Fin z) out (plotted_columns f) true = Ok plots) <-> forall m, In m (plotted_columns f) -> can m) /\
    (plots_over_time argsort empty (Fin z) out (plotted_columns f) true = Err (KeyError "Treatment") <-> exists m, In m (plotted_columns f) /\ ~ can m).
Proof.
  intros argsort empty z perf assigned d f start out SO [HD PT HF HR A1 A0 (by_date & binom & outer & concluded & neg & skip & HP & HS & H)] LE LB can.
  assert (D := fun m Hm => plot_drawn argsort empty z _ _ _ _ _ _ _ _ _ _ _ _ HP SO HD PT HF HR HS A1 A0 H LE LB m Hm).
  assert (N := fun m Hm => plot_not_drawn argsort empty z _ _ _ _ _ _ _ _ _ _ _ _ HP SO HD PT HF HR HS A1 H LE LB m Hm).
  fold can in D, N. unfold plots_over_time.
  match goal with |- context [mapM ?g _] => set (plot := g) in * end.
  assert (G : forall l, (forall m, In m l -> In m (plotted_columns f)) ->
    (exists ys, mapM plot l = Ok ys /\ forall m, In m l -> can m) \/ (mapM plot l = Err (KeyError "Treatment") /\ exists m, In m l /\ ~ can m)).
  { induction l as [|m l IH]; intros Hl; [left; exists []; split; [reflexivity|intros ? []]|].
    cbn [mapM]. assert (Hm := Hl m (or_introl eq_refl)).
    destruct (adjustable_dec perf assigned (raw_value (form_columns f) (form_at_least_one f) m) (start - pretest (par d) * week_ns) start) as [C|C].
    - destruct (D m Hm C) as (pts & s & E & _). change (plot m = Ok (pts, s)) in E. rewrite E. cbn [bind].
      destruct IH as [(ys & E' & Y)|(E' & m' & I' & C')]; [intros; apply Hl; now right| |]; rewrite E'; cbn [bind].
      + left. eexists. split; [reflexivity|]. intros q [<-|Hq]; auto.
      + right. split; auto. exists m'. split; [now right|exact C'].
    - assert (E := N m Hm C). change (plot m = Err (KeyError "Treatment")) in E. rewrite E. right. split; [reflexivity|]. exists m. split; [now left|exact C]. }
  destruct (G (plotted_columns f) (fun m Hm => Hm)) as [(ys & E & Y)|(E & m & I & C)].
  - split; split; intros X; eauto; [rewrite E in X; discriminate|]. destruct X as (m & I & C). elim C. now apply Y.
  - split; split; intros X; eauto; [destruct X as (p & X); rewrite E in X; discriminate|]. elim C. now apply X.
Qed.

(** every plot shows, on every observed date, the averages of the adjusted values of the items of the two arms with their difference and its band *)
Theorem c98_what_the_adjusted_plots_show :
  forall argsort empty z perf assigned d f start out plots,
    sorts argsort -> prepared_with_pretest perf assigned d f start out ->
    List.length empty = List.length out -> Z.of_nat (List.length out) <= 2 ^ 53 ->
    plots_over_time argsort empty (Fin z) out (plotted_columns f) true = Ok plots ->
    Forall2 (fun m plot => adjusted_plot z perf assigned (raw_value (form_columns f) (form_at_least_one f) m)
                             (start - pretest (par d) * week_ns) start (fst plot)) (plotted_columns f) plots.
Proof.
  intros argsort empty z perf assigned d f start out plots SO PW LE LB E.
  assert (C := proj1 (proj1 (c98_adjusted_plots_come_iff argsort empty z perf assigned d f start out SO PW LE LB)) (ex_intro _ plots E)). cbv zeta in C.
  destruct PW as [HD PT HF HR A1 A0 (by_date & binom & outer & concluded & neg & skip & HP & HS & H)].
  unfold plots_over_time in E. match type of E with mapM ?g ?l = _ =>
    destruct (mapM_all g l (fun m plot => adjusted_plot z perf assigned (raw_value (form_columns f) (form_at_least_one f) m) (start - pretest (par d) * week_ns) start (fst plot))) as (ys & E' & F) end.
  - intros m Hm. destruct (plot_drawn argsort empty z _ _ _ _ _ _ _ _ _ _ _ _ HP SO HD PT HF HR HS A1 A0 H LE LB m Hm (C m Hm)) as (pts & s & X & Y & _). eauto.
  - rewrite E in E'. injection E' as <-. exact F.
Qed.

(** the adjustment removes the imbalance of the pretest altogether: the adjusted differences of the dates before the start add up to zero,
    whatever the arms had before the start *)
Theorem c98_pretest_differences_cancel :
  forall argsort empty z perf assigned d f start out plots,
    sorts argsort -> prepared_with_pretest perf assigned d f start out ->
    List.length empty = List.length out -> Z.of_nat (List.length out) <= 2 ^ 53 ->
    plots_over_time argsort empty (Fin z) out (plotted_columns f) true = Ok plots ->
    Forall (fun plot => nsum (map Overtime_Model.pt_delta (filter (fun p => Overtime_Model.pt_date p <? start) (fst plot))) = Fin 0) plots.
Proof.
  intros argsort empty z perf assigned d f start out plots SO PW LE LB E.
  assert (C := proj1 (proj1 (c98_adjusted_plots_come_iff argsort empty z perf assigned d f start out SO PW LE LB)) (ex_intro _ plots E)). cbv zeta in C.
  destruct PW as [HD PT HF HR A1 A0 (by_date & binom & outer & concluded & neg & skip & HP & HS & H)].
  unfold plots_over_time in E. match type of E with mapM ?g ?l = _ =>
    destruct (mapM_all g l (fun (_ : string) plot => nsum (map Overtime_Model.pt_delta (filter (fun p => Overtime_Model.pt_date p <? start) (fst plot))) = Fin 0)) as (ys & E' & F) end.
  - intros m Hm. destruct (plot_drawn argsort empty z _ _ _ _ _ _ _ _ _ _ _ _ HP SO HD PT HF HR HS A1 A0 H LE LB m Hm (C m Hm)) as (pts & s & X & _ & Y). eauto.
  - rewrite E in E'. injection E' as <-. clear - F. induction F; constructor; auto.
Qed.

(* ------------------------------------------------------------------ *)
(** *** Examples *)
(** a week of pretest and the first day of the test; item a has one click a day and item b has y *)
Definition click_form : form := mkForm "clicks" "" "" "" "" "" "".
Definition some_days : list Z := [-7; -6; -5; -4; -3; -2; -1; 0].
Definition pre_perf (y : R) : list obs := map (fun i => mkObs "a" (i * day_ns) [Fin 1]) some_days ++ map (fun i => mkObs "b" (i * day_ns) [Fin y]) some_days.
Lemma indicator_of_two : indicator (Fin 2) = Fin 1.
Proof. unfold indicator. cbn. rewrite Rlt_bool_true by lra. reflexivity. Qed.
(** the value of b and whether it has a click *)
Definition cases (y y1 : R) : Prop := (y = 0 /\ y1 = 0)%R \/ (y = 2 /\ y1 = 1)%R.

Lemma pre_prepared y y1 : cases y y1 -> exists out, List.length out = 16%nat /\
  prepare_experiment isort_by_date (fun _ _ => Ok (Fin 1)) (fun l => l) (pre_perf y) ex_assigned ex_exp_design
    (form_columns click_form) 0 true (form_columns click_form) (form_at_least_one click_form) ex_skip = Ok out.
Proof.
  intros ZO.
  set (cols := fun c c1 : num => [("clicks", c); ("at_least_one_click", c1)]).
  set (out_of := fun u v => flat_map (fun ia => map (fun i => let w := i * day_ns / week_ns in
      mkE (fst ia) (i * day_ns) (if String.eqb (fst ia) "a" then cols (Fin 1) u else cols (Fin y) v)
        w (w * week_ns) (Some (if Z.ltb i 0 then "pretest" else "test")) (snd ia)) some_days) ex_assigned).
  set (out := out_of (Fin 1) (Fin y1)).
  assert (EO : out_of (indicator (Fin 1)) (indicator (Fin y)) = out).
  { unfold out. rewrite indicator_of_one. destruct ZO as [[-> ->]|[-> ->]]; rewrite ?indicator_of_two, ?indicator_of_zero; reflexivity. }
  exists out. split; [reflexivity|].
  assert (V : validate_experiment_data isort_by_date (fun _ _ => Ok (Fin 1)) (experiment_view out) ex_exp_design
    (form_columns click_form) 0 true (form_columns click_form) ex_skip = Ok tt).
  { rewrite experiment_run_all.
    replace (assert_all_exist ex_skip) with (Ok [tt]) by (vm_compute; reflexivity). cbn [bind].
    apply run_all_pass.
    repeat (constructor; [cbn [fst snd]|]); [| | | | | | | | | | | |constructor];
      try (left; clear EO; unfold out, out_of; destruct ZO as [[-> ->]|[-> ->]]; vm_compute; reflexivity).
    - right. split; [eexists; reflexivity|now left].
    - left. unfold check_srm. cbn [bind]. f_equal. apply one_above_threshold. }
  unfold prepare_experiment.
  match goal with |- context [raise_if ?b ?e] => change (raise_if b e) with (@Ok unit tt) end. cbn [bind pre_perf map app some_days].
  unfold fill_missing_rows_with_zeros at 1.
  match goal with |- context [raise_if ?b ?e] => change (raise_if b e) with (@Ok unit tt) end. cbn [bind].
  change (label_fun (par ex_exp_design) 0) with (Ok (regular_label 0 1 1)). cbn [bind].
  match goal with |- context [mapM ?f ?l] =>
    assert (M : mapM f l = Ok (map (fun r => (r, cols (nth 0 (o_vals (w_obs r)) NaN) (indicator (nth 0 (o_vals (w_obs r)) NaN)))) l)) by reflexivity end.
  rewrite M. clear M. cbn [bind].
  match goal with |- context [flat_map ?f ?l] => assert (FM : flat_map f l = out_of (indicator (Fin 1)) (indicator (Fin y))) by reflexivity end.
  rewrite FM, EO, V. reflexivity.
Qed.

Lemma click_distinct : distinct_columns click_form.
Proof.
  unfold distinct_columns.
  change (NoDup ["clicks"; "at_least_one_click"; "item_id"; "date"; "week_id"; "week_start"; "time_period"; "treatment_assignment"]).
  repeat (constructor; [cbn; intuition discriminate|]). constructor.
Qed.
Lemma pre_pretest y out :
  prepare_experiment isort_by_date (fun _ _ => Ok (Fin 1)) (fun l => l) (pre_perf y) ex_assigned ex_exp_design
    (form_columns click_form) 0 true (form_columns click_form) (form_at_least_one click_form) ex_skip = Ok out ->
  prepared_with_pretest (pre_perf y) ex_assigned ex_exp_design click_form 0 out.
Proof.
  intros H. constructor.
  - apply mk_design_check. vm_compute. reflexivity.
  - reflexivity.
  - apply click_distinct.
  - intros o Ho. unfold pre_perf in Ho. apply in_app_or in Ho as [Ho|Ho]; apply in_map_iff in Ho as (x & <- & _); reflexivity.
  - exists "a". left. vm_compute. reflexivity.
  - exists "b". right. left. vm_compute. reflexivity.
  - eexists _, _, _, _, _, _. split; [|split; [|exact H]]; [reflexivity|]. intros n Hn X. cbn in X. destruct X as [<-|[]]. cbn in Hn. intuition discriminate.
Qed.
Lemma pre_values y y1 : cases y y1 ->
  forall m i, In m ["clicks"; "at_least_one_click"] -> i = "a" \/ i = "b" ->
  before_start (pre_perf y) (raw_value (form_columns click_form) (form_at_least_one click_form) m) (0 - pretest (par ex_exp_design) * week_ns) 0 i =
  (7 * (if String.eqb i "a" then 1 else if String.eqb m "clicks" then y else y1))%R.
Proof.
  intros ZO m i Hm Hi.
  assert (RV : forall k x, raw_value (form_columns click_form) (form_at_least_one click_form) m (mkObs k x [Fin 1]) = Fin 1 /\
    raw_value (form_columns click_form) (form_at_least_one click_form) m (mkObs k x [Fin y]) = Fin (if String.eqb m "clicks" then y else y1)).
  { intros k x. assert (I1 : one_if_positive (Fin 1) = Fin 1) by (rewrite <- indicator_one; apply indicator_of_one).
    assert (IY : one_if_positive (Fin y) = Fin y1) by (rewrite <- indicator_one; destruct ZO as [[-> ->]|[-> ->]]; [apply indicator_of_zero|apply indicator_of_two]).
    destruct Hm as [<-|[<-|[]]]; split; try reflexivity; [exact I1|exact IY]. }
  unfold before_start, raw_total, pre_perf. rewrite (total_fin _ _ (fun o => if String.eqb (o_item o) "a" then 1%R else if String.eqb m "clicks" then y else y1)).
  - destruct Hi as [-> | ->]; cbn -[Rmult Rplus IZR]; rewrite ?Rplus_0_r; cbn; ring.
  - intros o Ho _. apply in_app_or in Ho as [Ho|Ho]; apply in_map_iff in Ho as (x & <- & _); apply RV.
Qed.

(** item b has no clicks: both plots are drawn *)
Example c98_example : exists out empty plots,
  prepared_with_pretest (pre_perf 0) ex_assigned ex_exp_design click_form 0 out /\ List.length empty = List.length out /\
  plots_over_time argsort_ref empty (Fin 2) out (plotted_columns click_form) true = Ok plots /\ List.length plots = 2%nat.
Proof.
  destruct (pre_prepared 0 0 ltac:(now left)) as (out & L & H). assert (PW := pre_pretest 0 out H).
  exists out, (repeat NaN (List.length out)).
  assert (LE : List.length (repeat NaN (List.length out)) = List.length out) by apply repeat_length.
  destruct (proj2 (proj1 (c98_adjusted_plots_come_iff argsort_ref _ 2 _ _ _ _ _ _ argsort_ref_sorts PW LE ltac:(rewrite L; vm_compute; discriminate)))) as (plots & E).
  - intros m Hm. exists "a", "b". split; [now left|]. split; [right; now left|].
    rewrite !(pre_values 0 0) by (auto; now left). cbn [String.eqb Ascii.eqb Bool.eqb]. destruct (String.eqb m "clicks"); lra.
  - exists plots. split; [exact PW|]. split; [exact LE|]. split; [exact E|].
    assert (G : forall A B (P : A -> B -> Prop) l m, Forall2 P l m -> List.length m = List.length l) by (induction 1; cbn; congruence).
    rewrite (G _ _ _ _ _ (c98_what_the_adjusted_plots_show _ _ _ _ _ _ _ _ _ _ argsort_ref_sorts PW LE ltac:(rewrite L; vm_compute; discriminate) E)). reflexivity.
Qed.
(** item b has two clicks every day: the clicks could be adjusted, but whether there was a click does not differ and the call fails *)
Theorem c98_checked_pretest_data_is_plotted_refuted : exists out empty,
  prepared_with_pretest (pre_perf 2) ex_assigned ex_exp_design click_form 0 out /\ List.length empty = List.length out /\
  plots_over_time argsort_ref empty (Fin 2) out (plotted_columns click_form) true = Err (KeyError "Treatment").
Proof.
  destruct (pre_prepared 2 1 ltac:(now right)) as (out & L & H). assert (PW := pre_pretest 2 out H).
  exists out, (repeat NaN (List.length out)).
  assert (LE : List.length (repeat NaN (List.length out)) = List.length out) by apply repeat_length.
  split; [exact PW|]. split; [exact LE|].
  apply (c98_adjusted_plots_come_iff argsort_ref _ 2 _ _ _ _ _ _ argsort_ref_sorts PW LE ltac:(rewrite L; vm_compute; discriminate)).
  exists "at_least_one_click". split; [right; now left|]. intros (i & j & I & J & N). apply N.
  assert (IT : forall i, In i (all_items ex_assigned) -> i = "a" \/ i = "b").
  { change (all_items ex_assigned) with ["a"; "b"]. intros k [<-|[<-|[]]]; auto. }
  rewrite !(pre_values 2 1) by (auto; try (now right); right; now left). cbn [String.eqb Ascii.eqb Bool.eqb].
  destruct (String.eqb i "a"), (String.eqb j "a"); lra.
Qed.

Print Assumptions c98_adjusted_plots_come_iff.
Print Assumptions c98_what_the_adjusted_plots_show.
Print Assumptions c98_pretest_differences_cancel.
Print Assumptions c98_checked_pretest_data_is_plotted_refuted.
