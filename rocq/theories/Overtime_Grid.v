(** C98, preparation: the adjusted plot of a complete grid of items and dates. *)
From Coq Require Import ZArith Reals Lra Lia String List Bool Permutation Sorting.Sorted.
From Flocq Require Import Core BinarySingleNaN.
Require Import Verif.Base Verif.Num Verif.F64 Verif.ListLib Verif.Design_Model Verif.Periods_Model Verif.Trimmed_Model Verif.Trimmed_Spec Verif.Moments Verif.Trimmed_Proofs
  Verif.Cuped_Model Verif.Cuped_Props Verif.Stats_Model Verif.Cupedplot_Model Verif.Cupedplot_Props Verif.Overtime_Model Verif.Overtime_Props.
Require Verif.Tests_Props.
Import ListNotations.
Open Scope list_scope.
Open Scope R_scope.

(** *** Sums *)
Lemma total_app l m : total (l ++ m) = total l + total m.
Proof. unfold total. induction l as [|x l IH]; cbn [app fold_right]; [ring|]. rewrite IH. ring. Qed.
Lemma total_plus {A} (f g : A -> R) l : total (map (fun x => f x + g x) l) = total (map f l) + total (map g l).
Proof. unfold total. induction l as [|x l IH]; cbn [map fold_right]; [ring|]. rewrite IH. ring. Qed.
Lemma total_scale {A} (f : A -> R) k l : total (map (fun x => f x * k) l) = total (map f l) * k.
Proof. unfold total. induction l as [|x l IH]; cbn [map fold_right]; [ring|]. rewrite IH. ring. Qed.
Lemma total_swap {A B} (f : A -> B -> R) l m : total (map (fun a => total (map (f a) m)) l) = total (map (fun b => total (map (fun a => f a b) l)) m).
Proof.
  induction l as [|a l IH].
  - cbn [map]. change (total []) with 0. symmetry. clear. induction m as [|b m IH]; [reflexivity|]. cbn [map]. unfold total in *. cbn [fold_right]. rewrite IH. ring.
  - cbn [map]. change (total (total (map (f a) m) :: map (fun a0 => total (map (f a0) m)) l)) with (total (map (f a) m) + total (map (fun a0 => total (map (f a0) m)) l)).
    rewrite IH, <- total_plus. f_equal.
Qed.
Lemma avg_swap {A B} (f : A -> B -> R) l m : total (map (fun a => avg (map (f a) m)) l) = avg (map (fun b => total (map (fun a => f a b) l)) m).
Proof.
  unfold avg. rewrite map_length, <- total_swap. unfold Rdiv at 2. rewrite <- total_scale. f_equal. apply map_ext. intros a. now rewrite map_length.
Qed.
Lemma codev_map {A} (f g : A -> R) l : codev (map f l) (map g l) = total (map (fun x => (f x - avg (map f l)) * (g x - avg (map g l))) l).
Proof.
  unfold codev. f_equal. generalize (avg (map f l)) (avg (map g l)). intros p q. induction l as [|x l IH]; [reflexivity|]. cbn [map combine fst snd]. now rewrite IH.
Qed.
Lemma codev_perm {A} (f g : A -> R) l m : Permutation l m -> codev (map f l) (map g l) = codev (map f m) (map g m).
Proof.
  intros P. rewrite !codev_map, (avg_perm _ _ (Permutation_map f P)), (avg_perm _ _ (Permutation_map g P)). apply total_perm. now apply Permutation_map.
Qed.
Lemma codev_swap {A B} (f : A -> B -> R) (h : B -> R) l m :
  total (map (fun a => codev (map (f a) m) (map h m)) l) = codev (map (fun b => total (map (fun a => f a b) l)) m) (map h m).
Proof.
  rewrite codev_map, <- (avg_swap f l m).
  rewrite (map_ext _ (fun a => total (map (fun b => (f a b - avg (map (f a) m)) * (h b - avg (map h m))) m))) by (intros; apply codev_map).
  rewrite total_swap. f_equal. apply map_ext. intros b. rewrite total_scale. f_equal.
  clear. induction l as [|a l IH]; [cbn; ring|]. cbn [map]. unfold total in *. cbn [fold_right]. rewrite IH. ring.
Qed.
Lemma sqdev_perm l m : Permutation l m -> sqdev l = sqdev m.
Proof. intros P. unfold sqdev. rewrite (avg_perm _ _ P). apply total_perm. now apply Permutation_map. Qed.
Lemma sqdev_zero_all l : sqdev l = 0 -> forall x y, In x l -> In y l -> x = y.
Proof.
  intros E x y Hx Hy. assert (N : l <> []) by (intros ->; destruct Hx). rewrite (sqdev_zero_repeat l N E) in Hx, Hy.
  apply repeat_spec in Hx, Hy. congruence.
Qed.
Lemma sqdev_const l v : (forall x, In x l -> x = v) -> sqdev l = 0.
Proof.
  intros H. destruct l as [|x0 l0] eqn:E; [reflexivity|]. rewrite <- E in *.
  assert (T : total l = v * INR (length l)).
  { clear E. induction l as [|x l IH]; [cbn; ring|]. change (total (x :: l)) with (x + total l). rewrite IH by (intros; apply H; now right).
    cbn [length]. rewrite S_INR, (H x (or_introl eq_refl)). ring. }
  assert (A : avg l = v). { unfold avg. rewrite T. field. apply not_0_INR. rewrite E. discriminate. }
  unfold sqdev. rewrite A. clear T A E. induction l as [|x l IH]; [reflexivity|]. cbn [map].
  change (total ((x - v) ^ 2 :: map (fun x => (x - v) ^ 2) l)) with ((x - v) ^ 2 + total (map (fun x => (x - v) ^ 2) l)).
  rewrite IH by (intros; apply H; now right). rewrite (H x (or_introl eq_refl)). ring.
Qed.

Lemma plot_points argsort empty z columns nm literal rows cuped pts s :
  plot_metric_over_time argsort empty z columns nm literal rows cuped = Ok (pts, s) ->
  exists c, plotted_column argsort empty columns nm rows cuped = Ok c /\ pts = map (point_at z rows c) (pivot_index mean_cell rows c) /\
    pivot_has_arm mean_cell rows c 1 = true.
Proof.
  intros E. unfold plot_metric_over_time in E. apply bind_ok in E as (? & _ & E). apply bind_ok in E as (c & EC & E). exists c. split; auto.
  apply bind_ok in E as (? & _ & E). apply bind_ok in E as (? & _ & E). apply bind_ok in E as (? & E1 & E).
  do 5 (apply bind_ok in E as (? & _ & E)). injection E as <- _. split; auto. destruct (pivot_has_arm mean_cell rows c 1); auto; discriminate.
Qed.

(** *** A complete grid: every item of [items], with its arm, on every date *)
Section Grid.
Context (rows : list arow) (items : list (string * Z)) (seen : Z -> Prop) (value : Z -> string -> R) (early : Z -> bool).
Let data := map fst rows.
Hypothesis KEYS : NoDup (map (fun r => (r_item (fst r), r_date (fst r))) rows).
Hypothesis ONCE : NoDup (map fst items).
Hypothesis ROW : forall r, In r rows -> In (r_item (fst r), snd r) items /\ seen (r_date (fst r)) /\ r_value (fst r) = value (r_date (fst r)) (r_item (fst r)) /\
  (r_period (fst r) = "pretest"%string <-> early (r_date (fst r)) = true).
Hypothesis FULL : forall i a d, In (i, a) items -> seen d -> exists r, In r rows /\ r_item (fst r) = i /\ snd r = a /\ r_date (fst r) = d.
Hypothesis EARLY : exists d, seen d /\ early d = true.
Hypothesis ARM1 : exists i, In (i, 1%Z) items.
Hypothesis ARM0 : exists i, In (i, 0%Z) items.

Definition named : list string := map fst items.
Definition named_arm (a : Z) : list string := map fst (filter (fun ia => Z.eqb (snd ia) a) items).
Definition before (i : string) : R := pretest_sum data i.

Lemma day_rows d : seen d -> Permutation (map (fun r : arow => (r_item (fst r), snd r)) (filter (fun r : arow => Z.eqb (r_date (fst r)) d) rows)) items.
Proof.
  intros S. apply NoDup_Permutation.
  - assert (N : NoDup (map (fun r : arow => r_item (fst r)) (filter (fun r : arow => Z.eqb (r_date (fst r)) d) rows))).
    { clear - KEYS. induction rows as [|r l IH]; [constructor|]. cbn [map] in KEYS. apply NoDup_cons_iff in KEYS as [N K]. specialize (IH K).
      cbn [filter]. destruct (Z.eqb_spec (r_date (fst r)) d) as [E|E]; auto. cbn [map]. constructor; auto.
      intros I. apply N. apply in_map_iff in I as (q & Eq & Hq). apply filter_In in Hq as [Hq Ed]. apply Z.eqb_eq in Ed. apply in_map_iff. exists q. split; auto. congruence. }
    apply (NoDup_map_inv fst). now rewrite map_map.
  - apply (NoDup_map_inv fst). exact ONCE.
  - intros [i a]. rewrite in_map_iff. split.
    + intros (r & E & Hr). apply filter_In in Hr as [Hr _]. apply ROW in Hr as (Hr & _). now rewrite E in Hr.
    + intros I. destruct (FULL i a d I S) as (r & Hr & <- & <- & Ed). exists r. split; auto. apply filter_In. split; auto. now apply Z.eqb_eq.
Qed.
Lemma day_items d : seen d -> Permutation (map r_item (on d data)) named.
Proof.
  intros S. assert (P := Permutation_map fst (day_rows d S)). rewrite map_map in P. cbn [fst] in P. unfold named.
  eapply perm_trans; [|exact P]. unfold on, data. clear. induction rows as [|r l IH]; [constructor|]. cbn [map filter]. destruct (Z.eqb (r_date (fst r)) d); cbn [map]; auto.
Qed.
Lemma arm_items d a : seen d -> Permutation (map r_item (on_arm d a rows)) (named_arm a).
Proof.
  intros S. assert (P := day_rows d S).
  assert (Q : forall l m, Permutation l m -> Permutation (map fst (filter (fun ia : string * Z => Z.eqb (snd ia) a) l)) (map fst (filter (fun ia : string * Z => Z.eqb (snd ia) a) m))).
  { clear. intros l m P. apply Permutation_map. induction P; cbn [filter]; repeat match goal with |- context [if ?b then _ else _] => destruct b end; auto using perm_swap. eapply perm_trans; eauto. }
  apply Q in P. eapply perm_trans; [|exact P]. unfold on_arm. clear. induction rows as [|r l IH]; [constructor|]. cbn [filter].
  destruct (Z.eqb (r_date (fst r)) d); cbn [andb map filter fst snd]; auto. destruct (Z.eqb (snd r) a); cbn [map fst]; auto.
Qed.
Lemma on_value d : map r_value (on d data) = map (value d) (map r_item (on d data)).
Proof.
  rewrite map_map. apply map_ext_in. intros r Hr. apply filter_In in Hr as [Hr Ed]. apply Z.eqb_eq in Ed. apply in_map_iff in Hr as (q & <- & Hq).
  destruct (ROW q Hq) as (_ & _ & E & _). now rewrite E, Ed.
Qed.
Lemma arm_value d a : map r_value (on_arm d a rows) = map (value d) (map r_item (on_arm d a rows)).
Proof.
  rewrite map_map. apply map_ext_in. intros r Hr. apply in_map_iff in Hr as (q & <- & Hq). apply filter_In in Hq as [Hq Ed]. apply andb_true_iff in Ed as [Ed _]. apply Z.eqb_eq in Ed.
  destruct (ROW q Hq) as (_ & _ & E & _). now rewrite E, Ed.
Qed.
Lemma totals_value d : totals_on d data = map before (map r_item (on d data)).
Proof. unfold totals_on. now rewrite map_map. Qed.
Lemma arm_nonempty d a : seen d -> (exists i, In (i, a) items) -> on_arm d a rows <> [].
Proof. intros S (i & I). destruct (FULL i a d I S) as (r & Hr & _ & Ea & Ed). apply on_arm_In. eauto. Qed.
Lemma some_pretest : exists r, In r rows /\ r_period (fst r) = "pretest"%string.
Proof.
  destruct EARLY as (d & S & E). destruct ARM1 as (i & I). destruct (FULL i _ d I S) as (r & Hr & _ & _ & Ed). exists r. split; auto.
  apply (ROW r Hr). now rewrite Ed.
Qed.
Lemma has_pretest i a : In (i, a) items -> pretest_of data i <> [].
Proof.
  intros I. destruct EARLY as (d & S & E). destruct (FULL i a d I S) as (r & Hr & Ei & _ & Ed). intros X.
  assert (J : In (fst r) (pretest_of data i)).
  { unfold pretest_of, data. apply filter_In. split; [now apply in_map|].
    destruct (string_dec (r_period (fst r)) "pretest") as [_|N]; [|elim N; apply (ROW r Hr); now rewrite Ed].
    destruct (string_dec (r_item (fst r)) i); congruence. }
  rewrite X in J. destruct J.
Qed.

(** *** What is drawn *)
Context (argsort : list num -> list nat) (empty : list num) (z : R) (columns : list string) (nm : names) (literal : list (Z * label)).
Hypothesis SO : sorts argsort.
Hypothesis COLS : all_columns columns nm /\ In "time_period"%string columns /\ In "date"%string columns.
Hypothesis LE : length empty = length rows.
Hypothesis LB : (Z.of_nat (length rows) <= 2 ^ 53)%Z.

Definition differ : Prop := exists i j, In i named /\ In j named /\ before i <> before j.
Lemma differ_sqdev d : seen d -> (differ <-> sqdev (totals_on d data) <> 0).
Proof.
  intros S. rewrite totals_value, (sqdev_perm _ _ (Permutation_map before (day_items d S))). split.
  - intros (i & j & I & J & N) E. apply N. apply (sqdev_zero_all _ E); now apply in_map.
  - intros N. assert (X : forall l : list string, sqdev (map before l) <> 0 -> exists i j, In i l /\ In j l /\ before i <> before j).
    { clear. intros l N. destruct l as [|i l]; [elim N; reflexivity|].
      destruct (Exists_dec (fun j => before i <> before j) l) as [E|E].
      - intros j. destruct (Req_EM_T (before i) (before j)) as [Q|Q]; [right; tauto|now left].
      - apply Exists_exists in E as (j & J & Q). exists i, j. split; [now left|split; [now right|exact Q]].
      - exfalso. apply N. apply (sqdev_const _ (before i)). intros x Hx. apply in_map_iff in Hx as (j & <- & [->|J]); auto.
        destruct (Req_EM_T (before j) (before i)) as [Q|Q]; auto. exfalso. apply E, Exists_exists. exists j. split; auto. }
    exact (X _ N).
Qed.

Lemma grid_drawn : differ -> exists pts,
  plot_metric_over_time argsort empty (Fin z) columns nm literal (map orow_of rows) true = Ok (pts, plot_start_date literal) /\
  StronglySorted Z.lt (map pt_date pts) /\ (forall d, In d (map pt_date pts) <-> seen d) /\
  forall p, In p pts -> let d := pt_date p in
    shows z (map (adjusted_value d data) (on_arm d 1 rows)) (map (adjusted_value d data) (on_arm d 0 rows)) p /\
    pt_delta p = Fin (avg (map (value d) (named_arm 1)) - avg (map (value d) (named_arm 0)) -
      codev (map (value d) named) (map before named) / sqdev (map before named) * (avg (map before (named_arm 1)) - avg (map before (named_arm 0)))).
Proof.
  intros DF. destruct COLS as (HC & CP & CD).
  assert (ALL : forall d, seen d -> exists pts p, plot_metric_over_time argsort empty (Fin z) columns nm literal (map orow_of rows) true = Ok (pts, plot_start_date literal) /\
      In p pts /\ pt_date p = d /\
      shows z (map (adjusted_value d data) (on_arm d 1 rows)) (map (adjusted_value d data) (on_arm d 0 rows)) p /\
      pt_delta p = Fin (avg (map r_value (on_arm d 1 rows)) - avg (map r_value (on_arm d 0 rows)) -
        theta d data * (avg (map (fun r => pretest_sum data (r_item r)) (on_arm d 1 rows)) - avg (map (fun r => pretest_sum data (r_item r)) (on_arm d 0 rows))))).
  { intros d S. apply (c81_adjusted_values argsort empty z columns nm literal rows d SO HC CP CD some_pretest LE LB).
    - intros r Hr. apply filter_In in Hr as [Hr _]. apply in_map_iff in Hr as (q & <- & Hq). apply ROW in Hq as (Hq & _). apply (has_pretest _ _ Hq).
    - now apply (differ_sqdev d S).
    - now apply arm_nonempty. - now apply arm_nonempty. }
  destruct EARLY as (d0 & S0 & _). destruct (ALL d0 S0) as (pts & p0 & E & _). exists pts. split; auto.
  destruct (plot_points _ _ _ _ _ _ _ _ _ _ E) as (c & _ & EP & _).
  assert (ED : map pt_date pts = pivot_index mean_cell (map orow_of rows) c) by (rewrite EP, map_map; cbn [point_at pt_date]; apply map_id).
  split; [rewrite ED; apply index_sorted|].
  assert (DS : forall d, In d (map pt_date pts) <-> seen d).
  { intros d. split.
    - rewrite ED. intros I. apply filter_In in I as [I _]. apply dates_In in I as (r & Hr & <-). now apply ROW in Hr as (_ & Hr & _).
    - intros S. destruct (ALL d S) as (pts' & p & E' & I & <- & _). assert (pts' = pts) by congruence. subst. now apply in_map. }
  split; auto. intros p Hp d. assert (S : seen d) by (apply DS; now apply in_map).
  destruct (ALL d S) as (pts' & p' & E' & I & D' & SH & DL). assert (pts' = pts) by congruence. subst pts'.
  assert (p' = p).
  { rewrite EP in I, Hp. apply in_map_iff in I as (x & <- & _). apply in_map_iff in Hp as (y & <- & _). cbn in D', d. now rewrite D'. }
  subst p'. split; [exact SH|]. rewrite DL. f_equal. unfold theta. rewrite !arm_value, on_value, totals_value.
  rewrite <- !(map_map r_item (pretest_sum data)). fold before. change (pretest_sum data) with before.
  rewrite (avg_perm _ _ (Permutation_map (value d) (arm_items d 1 S))), (avg_perm _ _ (Permutation_map (value d) (arm_items d 0 S))).
  rewrite (avg_perm _ _ (Permutation_map before (arm_items d 1 S))), (avg_perm _ _ (Permutation_map before (arm_items d 0 S))).
  rewrite (codev_perm (value d) before _ _ (day_items d S)), (sqdev_perm _ _ (Permutation_map before (day_items d S))). reflexivity.
Qed.

Lemma grid_not_drawn : ~ differ -> plot_metric_over_time argsort empty (Fin z) columns nm literal (map orow_of rows) true = Err (KeyError "Treatment").
Proof.
  intros NDF. destruct COLS as (HC & CP & CD).
  destruct some_pretest as (r & Hr & Er).
  assert (SP : exists q, In q data /\ r_period q = "pretest"%string) by (exists (fst r); split; [now apply in_map|exact Er]).
  assert (LD : length empty = length data) by (unfold data; now rewrite map_length). assert (LDB : (Z.of_nat (length data) <= 2 ^ 53)%Z) by (unfold data; now rewrite map_length).
  destruct (c77_dates_without_a_value argsort empty data SO SP LD LDB) as (c & EA & A).
  destruct (add_cuped_row argsort empty data SO SP LD LDB) as (c' & EA' & LC & _). assert (c' = c) by congruence. subst c'. clear EA'.
  assert (EO : map o_row (map orow_of rows) = map row data) by (unfold data; rewrite !map_map; reflexivity).
  assert (EX : existsb is_pretest (map o_row (map orow_of rows)) = true).
  { rewrite EO. apply existsb_exists. exists (row (fst r)). split; [apply in_map; unfold data; now apply in_map|]. unfold is_pretest. cbn. rewrite Er. reflexivity. }
  unfold plot_metric_over_time, plotted_column. rewrite !need_ok; try assumption; try (apply HC; cbn; tauto). cbn [bind].
  rewrite EX. cbn [negb raise_if bind]. rewrite EO, EA. cbn [bind].
  assert (N : pivot_has_arm mean_cell (map orow_of rows) c 1 = false).
  { apply not_true_iff_false. intros X. apply existsb_exists in X as (d & I & K). apply dates_In in I as (q & Hq & Eq).
    assert (S : seen d) by (apply ROW in Hq as (_ & Hq & _); now rewrite Eq in Hq).
    assert (B : column_on d data c = repeat NaN (length (on d data))).
    { apply A. right. left. destruct ARM1 as (i & I1). exists (before i). intros q' Hq'. fold (before (r_item q')).
      destruct (Req_EM_T (before (r_item q')) (before i)) as [Q|Q]; auto. exfalso. apply NDF. exists (r_item q'), i.
      split; [apply (Permutation_in _ (day_items d S)); now apply in_map|]. split; [unfold named; apply in_map_iff; now exists (i, 1%Z)|exact Q]. }
    unfold kept, pivot_cell in K.
    assert (X : group_values (map orow_of rows) c d 1 = map (fun _ => NaN) (on_arm d 1 rows)).
    { apply (group_values_on (fun _ => NaN)); [rewrite LC; unfold data; apply map_length|]. fold data. rewrite B. clear. induction (on d data); cbn; congruence. }
    rewrite X in K. replace (map (fun _ : rrow => NaN) (on_arm d 1 rows)) with (repeat NaN (length (on_arm d 1 rows))) in K by (clear; induction (on_arm d 1 rows); cbn; congruence).
    rewrite nan_group_mean in K. discriminate. }
  rewrite N. reflexivity.
Qed.

(** *** The pretest differences cancel *)
Lemma before_sum i a W : In (i, a) items -> NoDup W -> (forall d, In d W <-> seen d /\ early d = true) -> before i = total (map (fun d => value d i) W).
Proof.
  intros I ND HW. unfold before, pretest_sum. change (fold_right Rplus 0) with total.
  assert (E : map r_value (pretest_of data i) = map (fun d => value d i) (map r_date (pretest_of data i))).
  { rewrite map_map. apply map_ext_in. intros q Hq. unfold pretest_of in Hq. apply filter_In in Hq as [Hq X]. unfold data in Hq. apply in_map_iff in Hq as (r & <- & Hr).
    destruct (ROW r Hr) as (_ & _ & E & _). rewrite E. destruct (string_dec (r_period (fst r)) "pretest"); [|discriminate]. destruct (string_dec (r_item (fst r)) i) as [<-|]; [reflexivity|discriminate]. }
  rewrite E. apply total_perm, Permutation_map, NoDup_Permutation; auto.
  - unfold pretest_of, data. clear - KEYS. induction rows as [|r l IH]; [constructor|]. cbn [map] in KEYS. apply NoDup_cons_iff in KEYS as [N K]. specialize (IH K).
    cbn [map filter]. destruct (string_dec (r_period (fst r)) "pretest"); auto. destruct (string_dec (r_item (fst r)) i) as [Ei|]; auto. cbn [map]. constructor; auto.
    intros I. apply N. apply in_map_iff in I as (q & Eq & Hq). apply filter_In in Hq as [Hq X]. apply in_map_iff in Hq as (r' & <- & Hr').
    destruct (string_dec (r_period (fst r')) "pretest"); [|discriminate]. destruct (string_dec (r_item (fst r')) i); [|discriminate].
    apply in_map_iff. exists r'. split; auto. congruence.
  - intros d. rewrite HW, in_map_iff. split.
    + intros (q & <- & Hq). unfold pretest_of in Hq. apply filter_In in Hq as [Hq X]. unfold data in Hq. apply in_map_iff in Hq as (r & <- & Hr).
      destruct (ROW r Hr) as (_ & S & _ & P). split; auto. apply P. destruct (string_dec (r_period (fst r)) "pretest"); [auto|discriminate].
    + intros [S Ed]. destruct (FULL i a d I S) as (r & Hr & Ei & _ & Er). exists (fst r). split; auto. apply filter_In. split; [now apply in_map|].
      destruct (string_dec (r_period (fst r)) "pretest") as [_|N]; [|elim N; apply (ROW r Hr); now rewrite Er]. destruct (string_dec (r_item (fst r)) i); congruence.
Qed.

Lemma grid_cancels W : differ -> NoDup W -> (forall d, In d W <-> seen d /\ early d = true) ->
  total (map (fun d => avg (map (value d) (named_arm 1)) - avg (map (value d) (named_arm 0)) -
      codev (map (value d) named) (map before named) / sqdev (map before named) * (avg (map before (named_arm 1)) - avg (map before (named_arm 0)))) W) = 0.
Proof.
  intros DF ND HW.
  assert (BS : forall l, (forall i, In i l -> exists a, In (i, a) items) -> map before l = map (fun i => total (map (fun d => value d i) W)) l).
  { intros l Hl. apply map_ext_in. intros i Hi. destruct (Hl i Hi) as (a & I). now apply (before_sum i a). }
  assert (BN : map before named = map (fun i => total (map (fun d => value d i) W)) named).
  { apply BS. intros i Hi. apply in_map_iff in Hi as ([j a] & <- & I). now exists a. }
  assert (BA : forall a, avg (map before (named_arm a)) = total (map (fun d => avg (map (value d) (named_arm a))) W)).
  { intros a. rewrite BS, avg_swap; [reflexivity|]. intros i Hi. apply in_map_iff in Hi as ([j b] & <- & I). apply filter_In in I as [I _]. now exists b. }
  assert (NZ : sqdev (map before named) <> 0).
  { destruct EARLY as (d0 & S0 & _). assert (X := proj1 (differ_sqdev d0 S0) DF). now rewrite totals_value, (sqdev_perm _ _ (Permutation_map before (day_items d0 S0))) in X. }
  assert (TH : total (map (fun d => codev (map (value d) named) (map before named)) W) = sqdev (map before named)).
  { rewrite codev_swap, <- BN. apply codev_self. }
  set (s := sqdev (map before named)) in *. set (g := avg (map before (named_arm 1)) - avg (map before (named_arm 0))).
  transitivity (total (map (fun d => avg (map (value d) (named_arm 1))) W) - total (map (fun d => avg (map (value d) (named_arm 0))) W) -
    total (map (fun d => codev (map (value d) named) (map before named)) W) * (g / s)).
  - rewrite <- total_scale. clear - NZ. induction W as [|d W IH]; [cbn; ring|]. cbn [map]. unfold total in *. cbn [fold_right]. rewrite IH. field. exact NZ.
  - rewrite <- !BA, TH. unfold g. field. exact NZ.
Qed.
End Grid.
