(** C82: what the plot of the history of a metric shows. *)
From Coq Require Import ZArith Reals Lra Lia String List Bool Permutation Sorting.Sorted.
From Flocq Require Import Core.
Require Import Verif.Base Verif.Num Verif.ListLib Verif.Trimmed_Spec Verif.Trimmed_Proofs Verif.Moments Verif.Cuped_Props Verif.Stats_Model Verif.Tests_Props
  Verif.Cupedplot_Model Verif.Cupedplot_Props Verif.Curves_Model Verif.Curves_Props Verif.Overtime_Model Verif.Overtime_Props Verif.History_Model.
Import ListNotations.
Open Scope list_scope.
Open Scope R_scope.

(** *** Specification: rows with known keys and finite values *)
Record krow := mkKR { k_item : string; k_week : Z; k_value : R }.
Definition hrow_of (r : krow) : hrow := mkHR (Some (k_item r)) (Some (k_week r)) (Fin (k_value r)).
Definition rows_of_item (i : string) (rows : list krow) : list krow := filter (fun r => if string_dec (k_item r) i then true else false) rows.
Definition item_total (rows : list krow) (i : string) : R := total (map k_value (rows_of_item i rows)).
Definition week_total (rows : list krow) (w : Z) : R := total (map k_value (filter (fun r => if Z.eq_dec (k_week r) w then true else false) rows)).

(** *** Sums by group *)
Lemma total_by_key {K} (eq_dec : forall a b : K, {a = b} + {a <> b}) (key : krow -> K) (keys : list K) rows :
  NoDup keys -> (forall r, In r rows -> In (key r) keys) ->
  total (map (fun k => total (map k_value (filter (fun r => if eq_dec (key r) k then true else false) rows))) keys) = total (map k_value rows).
Proof.
  intros ND. induction rows as [|r rows IH]; intros H.
  - cbn. clear. induction keys as [|k keys IH]; [reflexivity|]. cbn [map total fold_right]. change (0 + total (map (fun _ : K => 0) keys) = 0). unfold total in *. rewrite IH. ring.
  - assert (I : In (key r) keys) by (apply H; now left).
    cbn [map]. change (total (k_value r :: map k_value rows)) with (k_value r + total (map k_value rows)).
    rewrite <- IH by (intros; apply H; now right). clear IH H.
    assert (X : forall ks, NoDup ks ->
      total (map (fun k => total (map k_value (filter (fun r0 => if eq_dec (key r0) k then true else false) (r :: rows)))) ks) =
      (if in_dec eq_dec (key r) ks then k_value r else 0) + total (map (fun k => total (map k_value (filter (fun r0 => if eq_dec (key r0) k then true else false) rows))) ks)).
    { clear I ND keys. induction ks as [|k ks IH]; intros ND; [cbn; ring|]. inversion ND as [|? ? NI ND']; subst.
      cbn [map]. unfold total in *. cbn [fold_right]. rewrite (IH ND'). cbn [filter].
      destruct (eq_dec (key r) k) as [E|N].
      - subst k. destruct (in_dec eq_dec (key r) ks); [contradiction|]. destruct (in_dec eq_dec (key r) (key r :: ks)) as [_|N]; [|exfalso; apply N; now left].
        cbn [map fold_right]. ring.
      - destruct (in_dec eq_dec (key r) (k :: ks)) as [J|J], (in_dec eq_dec (key r) ks) as [J'|J']; try ring.
        + destruct J; [congruence|contradiction].
        + exfalso. apply J. now right. }
    rewrite (X keys ND). destruct (in_dec eq_dec (key r) keys); [reflexivity|contradiction].
Qed.

Lemma known_weeks rows : known (map h_week (map hrow_of rows)) = map k_week rows.
Proof. induction rows as [|r rows IH]; auto. unfold known in *. cbn. now rewrite IH. Qed.
Lemma known_items rows : known (map h_item (map hrow_of rows)) = map k_item rows.
Proof. induction rows as [|r rows IH]; auto. unfold known in *. cbn. now rewrite IH. Qed.
Lemma of_week_eq w rows : map h_value (filter (of_week w) (map hrow_of rows)) =
  map Fin (map k_value (filter (fun r => if Z.eq_dec (k_week r) w then true else false) rows)).
Proof.
  induction rows as [|r rows IH]; auto. cbn [map filter of_week hrow_of h_week]. rewrite Z.eqb_sym.
  destruct (Z.eq_dec (k_week r) w) as [->|N]; [rewrite Z.eqb_refl|apply Z.eqb_neq in N; rewrite N]; cbn [map h_value]; now rewrite IH.
Qed.
Lemma of_item_eq i rows : map h_value (filter (of_item i) (map hrow_of rows)) = map Fin (map k_value (rows_of_item i rows)).
Proof.
  unfold rows_of_item. induction rows as [|r rows IH]; auto. cbn [map filter of_item hrow_of h_item]. rewrite String.eqb_sym.
  destruct (string_dec (k_item r) i) as [->|N]; [rewrite String.eqb_refl|apply String.eqb_neq in N; rewrite N]; cbn [map h_value]; now rewrite IH.
Qed.
Lemma items_In i rows : In i (items_of (map hrow_of rows)) <-> exists r, In r rows /\ k_item r = i.
Proof.
  unfold items_of. rewrite isort_In, (dedup_In String.eqb String.eqb_eq), known_items, in_map_iff. split; intros (r & ? & ?); eauto.
Qed.
Lemma items_NoDup rows : NoDup (items_of rows).
Proof. unfold items_of. apply isort_NoDup, dedup_NoDup, String.eqb_eq. Qed.

(** *** Totals per week *)
Theorem c82_weekly_totals :
  forall rows, let pts := weekly_totals (map hrow_of rows) in
    StronglySorted Z.lt (map fst pts) /\ (forall w, In w (map fst pts) <-> exists r, In r rows /\ k_week r = w) /\
    (forall w t, In (w, t) pts -> t = Fin (week_total rows w)) /\
    nsum (map snd pts) = Fin (total (map k_value rows)).
Proof.
  intros rows pts. unfold pts, weekly_totals. rewrite known_weeks.
  assert (E : map (fun w => (w, skipna_sum (map h_value (filter (of_week w) (map hrow_of rows))))) (zsort_uniq (map k_week rows)) =
    map (fun w => (w, Fin (week_total rows w))) (zsort_uniq (map k_week rows))).
  { apply map_ext. intros w. rewrite of_week_eq, skipna_fin. reflexivity. }
  rewrite E. split; [rewrite map_map, map_id; apply zsort_uniq_sorted|]. split.
  - intros w. rewrite map_map, map_id, zsort_uniq_In, in_map_iff. split; intros (r & ? & ?); eauto.
  - split.
    + intros w t H. apply in_map_iff in H as (w' & H & _). congruence.
    + rewrite map_map. cbn [snd]. rewrite <- (map_map (week_total rows) Fin), nsum_fin. f_equal.
      unfold week_total. apply (total_by_key Z.eq_dec k_week); [apply zsort_uniq_NoDup|]. intros r Hr. apply zsort_uniq_In. now apply in_map.
Qed.

(** *** The distribution over the items *)
Lemma metric_per_item_eq rows : metric_per_item (map hrow_of rows) = data (map (fun i => avg (map k_value (rows_of_item i rows))) (items_of (map hrow_of rows))).
Proof.
  unfold metric_per_item, data. rewrite map_map. apply map_ext_in. intros i Hi. rewrite of_item_eq. apply mean_cell_fin.
  apply items_In in Hi as (r & Hr & Ei). intros E. apply map_eq_nil in E. assert (I : In r (rows_of_item i rows)).
  { apply filter_In. split; auto. destruct (string_dec (k_item r) i); congruence. } rewrite E in I. destruct I.
Qed.

Lemma choice_scale c part xs : c <> 0 -> choice_of part (map (Rmult c) xs) -> exists p, choice_of p xs /\ part = map (Rmult c) p.
Proof.
  intros Hc (rest & P). assert (Q := Permutation_map (Rmult (/ c)) P). rewrite map_map in Q.
  rewrite (map_ext (fun x => / c * (c * x)) (fun x => x)) in Q by (intros; field; auto). rewrite map_id, map_app in Q.
  exists (map (Rmult (/ c)) part). split; [eexists; exact Q|]. rewrite map_map, (map_ext (fun x => c * (/ c * x)) (fun x => x)) by (intros; field; auto).
  now rewrite map_id.
Qed.
Lemma total_scale c l : total (map (Rmult c) l) = c * total l.
Proof. induction l as [|x l IH]; [cbn; ring|]. cbn [map]. unfold total in *. cbn [fold_right]. rewrite IH. ring. Qed.
Lemma top_total_scale c k xs t : 0 < c -> top_total k (map (Rmult c) xs) t -> top_total k xs (t / c).
Proof.
  intros Hc [(part & C & L & T) B]. assert (Hc' : c <> 0) by lra. split.
  - destruct (choice_scale c part xs Hc' C) as (p & Cp & ->). rewrite map_length in L. rewrite total_scale in T. exists p. split; auto. split; auto. rewrite <- T. field. auto.
  - intros p (rest & P) Lp. assert (X : total (map (Rmult c) p) <= t).
    { apply B; [|now rewrite map_length]. exists (map (Rmult c) rest). rewrite <- map_app. now apply Permutation_map. }
    rewrite total_scale in X. apply Rmult_le_reg_l with c; auto. replace (c * (t / c)) with t by (field; auto). exact X.
Qed.

(** With the same number of rows for every item the Lorenz curve shows what it says: the share of the metric captured by the k+1 best items. *)
Theorem c82_balanced_data_lorenz_curve :
  forall rows m, (0 < m)%nat -> (forall r, In r rows -> length (rows_of_item (k_item r) rows) = m) -> total (map k_value rows) <> 0 ->
    let items := items_of (map hrow_of rows) in
    let pts := snd (plot_metric_history (map hrow_of rows)) in
    (forall i, In i items -> avg (map k_value (rows_of_item i rows)) = item_total rows i / INR m) /\
    length pts = length items /\
    forall k, (k < length items)%nat -> exists t, top_total (S k) (map (item_total rows) items) t /\
      nth_error pts k = Some (Fin (INR (S k) / INR (length items)), Fin (t / total (map k_value rows))).
Proof.
  intros rows m Hm HB T0 items pts. assert (Pm : 0 < INR m) by now apply lt_0_INR.
  assert (AV : forall i, In i items -> avg (map k_value (rows_of_item i rows)) = item_total rows i / INR m).
  { intros i Hi. apply items_In in Hi as (r & Hr & <-). unfold avg, item_total. rewrite map_length, (HB r Hr). reflexivity. }
  assert (TT : total (map (item_total rows) items) = total (map k_value rows)).
  { apply (total_by_key string_dec k_item); [apply items_NoDup|]. intros r Hr. apply items_In. eauto. }
  split; [exact AV|]. unfold pts, plot_metric_history. cbn [snd]. rewrite metric_per_item_eq. fold items.
  assert (ES : map (fun i => avg (map k_value (rows_of_item i rows))) items = map (Rmult (/ INR m)) (map (item_total rows) items)).
  { rewrite map_map. apply map_ext_in. intros i Hi. rewrite (AV i Hi). unfold Rdiv. ring. }
  rewrite ES. set (xs := map (item_total rows) items) in *.
  assert (NE : xs <> []). { intros X. apply T0. rewrite <- TT, X. reflexivity. }
  assert (LX : length xs = length items) by (unfold xs; apply map_length).
  assert (Im : 0 < / INR m) by now apply Rinv_0_lt_compat.
  assert (NE' : map (Rmult (/ INR m)) xs <> []) by (destruct xs; [congruence|discriminate]).
  assert (TS : total (map (Rmult (/ INR m)) xs) <> 0) by (rewrite total_scale, TT; apply Rmult_integral_contrapositive_currified; lra).
  destruct (c75_lorenz_points (map (Rmult (/ INR m)) xs) NE' TS) as [L PT]. rewrite map_length, LX in L, PT. split; [exact L|].
  intros k K. destruct (PT k K) as (t & TP & EP). exists (t / / INR m). split; [now apply top_total_scale|].
  rewrite EP. do 3 f_equal. rewrite total_scale, TT. field. split; lra.
Qed.

(** Without that it does not: an item with one good week counts more than an item with three. *)
Definition new_item_rows : list krow := [mkKR "a" 0 5; mkKR "a" 1 5; mkKR "a" 2 5; mkKR "b" 2 10].
Theorem c82_lorenz_curve_shows_captured_share_refuted :
  exists rows, (forall r, In r rows -> 0 < k_value r) /\
    let items := items_of (map hrow_of rows) in
    exists share t, nth_error (snd (plot_metric_history (map hrow_of rows))) 0 = Some (Fin (1 / 2), Fin share) /\
      top_total 1 (map (item_total rows) items) t /\ t / total (map k_value rows) < share.
Proof.
  exists new_item_rows. split. { intros r [<-|[<-|[<-|[<-|[]]]]]; cbn; lra. }
  assert (EI : items_of (map hrow_of new_item_rows) = ["a"; "b"]%string) by (vm_compute; reflexivity). cbv zeta.
  unfold plot_metric_history. cbn [snd]. rewrite metric_per_item_eq, EI. cbn [map].
  assert (A : avg (map k_value (rows_of_item "a" new_item_rows)) = 5) by (unfold avg; cbn; field).
  assert (B : avg (map k_value (rows_of_item "b" new_item_rows)) = 10) by (unfold avg; cbn; field). rewrite A, B.
  assert (TA : item_total new_item_rows "a" = 15) by (unfold item_total; cbn; ring).
  assert (TB : item_total new_item_rows "b" = 10) by (unfold item_total; cbn; ring). rewrite TA, TB.
  destruct (c75_lorenz_points [5; 10]) as [_ PT]; [discriminate|cbn; lra|]. destruct (PT 0%nat) as (t & [_ BT] & EP); [cbn; lia|].
  exists (t / total [5; 10]), 15. split. { rewrite EP. reflexivity. }
  split.
  - split; [exists [15]; split; [exists [10]; apply Permutation_refl|split; [reflexivity|cbn; ring]]|].
    intros part (rest & P) L. destruct part as [|x [|? part]]; try discriminate L. assert (I : In x [15; 10]) by (apply (Permutation_in _ P); now left).
    destruct I as [<-|[<-|[]]]; cbn; lra.
  - assert (10 <= t). { replace 10 with (total [10]) by (cbn; ring). apply BT; [exists [5]; apply perm_swap|reflexivity]. }
    cbn. lra.
Qed.

Example c82_example :
  (forall r, In r [mkKR "a" 0 5; mkKR "b" 0 10] -> length (rows_of_item (k_item r) [mkKR "a" 0 5; mkKR "b" 0 10]) = 1%nat) /\
  total (map k_value [mkKR "a" 0 5; mkKR "b" 0 10]) <> 0 /\ map fst (weekly_totals (map hrow_of new_item_rows)) = [0; 1; 2]%Z.
Proof. split; [intros r [<-|[<-|[]]]; reflexivity|]. split; [cbn; lra|]. unfold weekly_totals. rewrite map_map. vm_compute. reflexivity. Qed.

Print Assumptions c82_weekly_totals.
Print Assumptions c82_balanced_data_lorenz_curve.
Print Assumptions c82_lorenz_curve_shows_captured_share_refuted.
