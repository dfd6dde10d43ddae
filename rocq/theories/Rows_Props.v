(** Properties C17 - C22: week ids, weekly grouping, filling, downsampling. *)
From Coq Require Import ZArith Reals List String Bool Lia Lra Permutation Sorting.Sorted.
From Flocq Require Import Core BinarySingleNaN.
Require Import Verif.Base Verif.Num Verif.F64 Verif.ListLib Verif.Rows_Model Verif.Rows_Spec
  Verif.Rows_Proofs.
Import ListNotations.
Open Scope string_scope.
Open Scope Z_scope.

(** C17. *)
Theorem c17_week_id_and_start start date k :
  (week_id start date = k <-> in_week start date k) /\
  (week_id start date = k -> week_start start date = start + k * week_ns).
Proof.
  split; [apply week_id_iff|]. intros <-. apply week_start_eq.
Qed.

Theorem c17_given_start_labels_every_row s rows :
  Forall2 (fun r w => w_obs w = r /\ in_week s (o_date r) (w_week w) /\
                      w_start w = s + w_week w * week_ns) rows (add_weeks (Some s) rows).
Proof.
  simpl. induction rows as [|r rows IH]; simpl; constructor; auto. simpl. split; auto.
  split; [now apply week_id_iff|apply week_start_eq].
Qed.

Lemma zmin_date_spec rows : rows <> [] -> exists m,
  zmin_date rows = Some m /\ (exists r, In r rows /\ o_date r = m) /\ forall r, In r rows -> m <= o_date r.
Proof.
  destruct rows as [|r0 rows]; [congruence|]. intros _. simpl. eexists. split; [reflexivity|].
  assert (G : forall l x, (fold_left Z.min l x = x \/ In (fold_left Z.min l x) l) /\
     fold_left Z.min l x <= x /\ forall y, In y l -> fold_left Z.min l x <= y).
  { induction l as [|a l IH]; intros x; cbn [fold_left].
    - split; [now left|]. split; [lia|]. intros y [].
    - destruct (IH (Z.min x a)) as (H1 & H2 & H3). split; [|split; [lia|]].
      + destruct H1 as [H1|H1]; [|right; now right]. rewrite H1.
        destruct (Z.min_spec x a) as [[_ ->]|[_ ->]]; [now left|right; now left].
      + intros y [<-|Hy]; [lia|auto]. }
  destruct (G (map o_date rows) (o_date r0)) as (H1 & H2 & H3). split.
  - destruct H1 as [H1|H1]; [exists r0; split; [now left|auto]|].
    apply in_map_iff in H1 as (r & E & Hr). exists r. split; [now right|auto].
  - intros r [<-|Hr]; auto. apply H3. now apply in_map.
Qed.

Theorem c17_default_start_is_earliest_date rows :
  rows <> [] ->
  exists m, (exists r, In r rows /\ o_date r = m) /\ (forall r, In r rows -> m <= o_date r) /\
    add_weeks None rows = add_weeks (Some m) rows /\
    (forall w, In w (add_weeks None rows) -> 0 <= w_week w) /\
    (exists w, In w (add_weeks None rows) /\ w_week w = 0).
Proof.
  intros H. destruct (zmin_date_spec rows H) as (m & E & (r & Hr & Em) & Hm).
  exists m. split; [eauto|]. split; auto.
  assert (EQ : add_weeks None rows = add_weeks (Some m) rows) by (unfold add_weeks; now rewrite E).
  split; auto. rewrite EQ. simpl. split.
  - intros w Hw. apply in_map_iff in Hw as (r' & <- & Hr'). simpl. unfold week_id.
    apply Z.div_pos; [|lia]. apply Z.div_pos; [|reflexivity]. specialize (Hm _ Hr'). lia.
  - eexists. split; [apply in_map_iff; exists r; eauto|]. simpl. rewrite Em. unfold week_id.
    now rewrite Z.sub_diag.
Qed.

(** a date one nanosecond before the start is in week -1; noon of day 6 is in week 0 *)
Example c17_example : week_id 0 (-1) = -1 /\ week_id 0 (6 * day_ns + 12 * 3600 * 1000000000) = 0
  /\ week_id 0 (7 * day_ns) = 1 /\ week_start 0 (-1) = - week_ns.
Proof. repeat split. Qed.

(** C18. *)
Theorem c18_daily_data_gives_complete_weeks_with_exact_totals k rows out :
  evenly_spaced 1 (map (fun r => o_date (w_obs r)) rows) ->
  group_data_to_complete_weeks k rows = Ok out ->
  (forall g, In g out <->
     has_card (fun d => exists r, In r rows /\ same_group g r /\ o_date (w_obs r) = d) 7 /\
     g_vals g = map (fun j => total (same_groupb g) (fun r => nth j (o_vals (w_obs r)) NaN) rows) (seq 0 k)) /\
  NoDup (map gkey out) /\
  StronglySorted (fun a b => gkleb a b = true /\ a <> b) (map gkey out).
Proof.
  intros HE. unfold group_data_to_complete_weeks.
  rewrite (proj2 (frequency_iff 1 _) HE). intros H. inversion H; subst. split; [apply group_weeks_In|].
  pose proof (group_weeks_sorted k rows) as S. split; auto.
  induction S as [|a l S IH F]; constructor; auto. rewrite Forall_forall in F.
  intros Hin. apply F in Hin. tauto.
Qed.

Theorem c18_weekly_data_is_returned_unchanged k rows out :
  evenly_spaced 7 (map (fun r => o_date (w_obs r)) rows) ->
  (exists a b, In a rows /\ In b rows /\ o_date (w_obs a) <> o_date (w_obs b)) ->
  group_data_to_complete_weeks k rows = Ok out ->
  Forall2 (fun r g => same_group g r /\ g_vals g = o_vals (w_obs r)) rows out.
Proof.
  intros HE (a & b & Ha & Hb & Hab). unfold group_data_to_complete_weeks.
  destruct (forallb (Z.eqb 1) _) eqn:E1.
  - apply frequency_iff in E1. exfalso.
    (* two adjacent distinct dates exist *)
    set (ds := map (fun r => o_date (w_obs r)) rows) in *.
    assert (G : exists x y, In x ds /\ In y ds /\ x < y /\ forall c, In c ds -> ~ (x < c < y)).
    { assert (K : forall l, StronglySorted Z.lt l -> (exists x y, In x l /\ In y l /\ x < y) ->
         exists x y, In x l /\ In y l /\ x < y /\ forall c, In c l -> ~ (x < c < y)).
      { intros l Hs. destruct Hs as [|x l Hs Hf]; [intros (? & ? & [] & _)|].
        destruct Hs as [|y l Hs Hf'].
        - intros (x' & y' & [<-|[]] & [<-|[]] & ?). lia.
        - intros _. exists x, y. rewrite Forall_forall in *. split; [now left|]. split; [right; now left|].
          split; [apply Hf; now left|]. intros c [<-|[<-|Hc]]; try lia. apply Hf' in Hc. lia. }
      destruct (K (zsort_uniq ds)) as (x & y & Hx & Hy & Hxy & Hno).
      - apply zsort_uniq_sorted.
      - assert (Ia : In (o_date (w_obs a)) (zsort_uniq ds)) by (apply zsort_uniq_In; unfold ds; apply in_map_iff; eauto).
        assert (Ib : In (o_date (w_obs b)) (zsort_uniq ds)) by (apply zsort_uniq_In; unfold ds; apply in_map_iff; eauto).
        destruct (Z.lt_total (o_date (w_obs a)) (o_date (w_obs b))) as [|[|]]; eauto; congruence.
      - exists x, y. rewrite zsort_uniq_In in Hx, Hy. split; auto. split; auto. split; auto.
        intros c Hc. apply Hno. now apply zsort_uniq_In. }
    destruct G as (x & y & Hx & Hy & Hxy & Hno).
    specialize (HE x y Hx Hy Hxy Hno). specialize (E1 x y Hx Hy Hxy Hno). unfold day_ns in *. lia.
  - rewrite (proj2 (frequency_iff 7 _) HE). intros H. inversion H; subst. clear.
    induction rows; simpl; constructor; auto. unfold same_group. simpl. tauto.
Qed.

Lemma Permutation_filter' {A} (f : A -> bool) l1 l2 :
  Permutation l1 l2 -> Permutation (filter f l1) (filter f l2).
Proof.
  induction 1; simpl; auto.
  - destruct (f x); auto using perm_skip.
  - destruct (f x), (f y); auto using perm_swap, Permutation_refl.
  - etransitivity; eauto.
Qed.

(** complete weeks are conserved in total *)
Theorem c18_totals_of_complete_weeks_are_conserved k rows out j (complete : wrow -> bool) :
  evenly_spaced 1 (map (fun r => o_date (w_obs r)) rows) ->
  group_data_to_complete_weeks k rows = Ok out -> (j < k)%nat ->
  (forall r, In r rows -> complete r = true <->
     has_card (fun d => exists r', In r' rows /\ wkey r' = wkey r /\ o_date (w_obs r') = d) 7) ->
  nsum (map (fun g => nth j (g_vals g) NaN) out) =
  total complete (fun r => nth j (o_vals (w_obs r)) NaN) rows.
Proof.
  intros HE H Hj HC. unfold group_data_to_complete_weeks in H.
  rewrite (proj2 (frequency_iff 1 _) HE) in H. inversion H; subst; clear H.
  set (ok := fun kk => Nat.eqb (distinct_dates (group_of gkeqb wkey rows kk)) 7).
  assert (OK : forall r, In r rows -> complete r = ok (wkey r)).
  { intros r Hr. apply eq_true_iff_eq. rewrite (HC r Hr). unfold ok. rewrite Nat.eqb_eq.
    unfold distinct_dates. rewrite (dedup_card Z.eqb Z.eqb_eq).
    assert (X : forall d, In d (map (fun r => o_date (w_obs r)) (group_of gkeqb wkey rows (wkey r))) <->
       exists r', In r' rows /\ wkey r' = wkey r /\ o_date (w_obs r') = d).
    { intros d. rewrite in_map_iff. split.
      - intros (r' & <- & Hr'). apply (group_of_In gkeqb gkleb wkey ord_gkey) in Hr' as [? ?]. eauto.
      - intros (r' & H1 & H2 & <-). exists r'. split; auto. apply (group_of_In gkeqb gkleb wkey ord_gkey). auto. }
    unfold has_card. split; intros (s & H1 & H2 & H3); exists s; split; auto; split; auto;
      intros d; rewrite H3; [symmetry; apply X|apply X]. }
  rewrite total_filter.
  assert (P : Permutation (flat_map (group_of gkeqb wkey rows) (filter ok (group_keys gkeqb gkleb wkey rows)))
                (filter complete rows)).
  { transitivity (filter (fun r => ok (wkey r)) rows).
    2:{ erewrite filter_ext_in; [reflexivity|]. intros r Hr. simpl. now rewrite OK. }
    transitivity (filter (fun r => ok (wkey r)) (flat_map (group_of gkeqb wkey rows) (group_keys gkeqb gkleb wkey rows))).
    2:{ assert (PP := groupby_partition_keys gkeqb gkleb wkey ord_gkey (group_keys gkeqb gkleb wkey rows) rows
          (group_keys_NoDup gkeqb gkleb wkey ord_gkey rows)).
        assert (PP' : Permutation (flat_map (group_of gkeqb wkey rows) (group_keys gkeqb gkleb wkey rows)) rows).
        { apply PP. intros r Hr. apply (group_keys_In gkeqb gkleb wkey ord_gkey). eauto. }
        exact (Permutation_filter' _ _ _ PP'). }
    induction (group_keys gkeqb gkleb wkey rows) as [|kk ks IH]; simpl; auto.
    rewrite filter_app. destruct (ok kk) eqn:E; simpl.
    - apply Permutation_app; auto. rewrite filter_all; auto.
      intros r Hr. apply (group_of_In gkeqb gkleb wkey ord_gkey) in Hr as [_ <-]. auto.
    - rewrite (filter_none _ (group_of gkeqb wkey rows kk)); auto.
      intros r Hr. apply (group_of_In gkeqb gkleb wkey ord_gkey) in Hr as [_ <-]. auto. }
  rewrite <- (nsum_perm _ _ (Permutation_map _ P)). clear P OK HC.
  unfold group_weeks, groupby.
  induction (group_keys gkeqb gkleb wkey rows) as [|kk ks IH]; simpl; auto.
  fold (ok kk). destruct (ok kk); auto. simpl. rewrite map_app, nsum_app, IH. f_equal.
  destruct kk as [[w s] [i e]]. simpl. unfold sums.
  rewrite (nth_indep _ NaN (col_sum 0 (map w_obs (group_of gkeqb wkey rows (w, s, (i, e)))))) by (rewrite map_length, seq_length; lia).
  rewrite (map_nth (fun j => col_sum j (map w_obs (group_of gkeqb wkey rows (w, s, (i, e))))) (seq 0 k) 0%nat j).
  rewrite seq_nth by lia. unfold col_sum. simpl. now rewrite map_map.
Qed.

(** C19. *)
Theorem c19_raises_iff_neither_daily_nor_weekly k rows :
  (exists e, group_data_to_complete_weeks k rows = Err e) <->
  ~ evenly_spaced 1 (map (fun r => o_date (w_obs r)) rows) /\
  ~ evenly_spaced 7 (map (fun r => o_date (w_obs r)) rows).
Proof.
  unfold group_data_to_complete_weeks. rewrite <- !frequency_iff.
  destruct (forallb (Z.eqb 1) _); [|destruct (forallb (Z.eqb 7) _)].
  - split; [intros (e & ?); discriminate|tauto].
  - split; [intros (e & ?); discriminate|tauto].
  - split; [intros _; split; discriminate|eauto].
Qed.

(** data with a single distinct date is grouped as daily data, so every row is dropped *)
Theorem c19_single_date_data_comes_back_empty k rows d :
  (forall r, In r rows -> o_date (w_obs r) = d) -> group_data_to_complete_weeks k rows = Ok [].
Proof.
  intros H. unfold group_data_to_complete_weeks.
  assert (HE : evenly_spaced 1 (map (fun r => o_date (w_obs r)) rows)).
  { intros a b Ha Hb Hab. apply in_map_iff in Ha as (ra & <- & Ha), Hb as (rb & <- & Hb).
    rewrite (H _ Ha), (H _ Hb) in Hab. lia. }
  rewrite (proj2 (frequency_iff 1 _) HE). f_equal.
  destruct (group_weeks k rows) as [|g gs] eqn:E; auto. exfalso.
  assert (Hg : In g (group_weeks k rows)) by (rewrite E; now left).
  apply group_weeks_In in Hg as ((l & Hn & Hl & HI) & _).
  destruct l as [|x [|y l]]; try discriminate.
  destruct (proj1 (HI x)) as (r1 & R1 & _ & <-); [now left|].
  destruct (proj1 (HI y)) as (r2 & R2 & _ & <-); [right; now left|].
  rewrite (H _ R1), (H _ R2) in Hn. inversion Hn; subst. apply H2. now left.
Qed.

Theorem c19_weekly_data_is_never_grouped_refuted :
  exists k rows, rows <> [] /\ evenly_spaced 7 (map (fun r => o_date (w_obs r)) rows) /\
    group_data_to_complete_weeks k rows = Ok [].
Proof.
  exists 1%nat, [mkW (mkObs "a" 0 [Fin 3]) 0 0 []; mkW (mkObs "b" 0 [Fin 4]) 0 0 []].
  split; [discriminate|]. split.
  - intros a b Ha Hb Hab. simpl in *. intuition lia.
  - apply c19_single_date_data_comes_back_empty with (d := 0). intros r [<-|[<-|[]]]; reflexivity.
Qed.

Example c18_example_daily :
  let rows := map (fun i => mkW (mkObs "a" (i * day_ns) [Fin 1]) (i / 7) ((i / 7) * week_ns) []) [0;1;2;3;4;5;6;7;8] in
  evenly_spaced 1 (map (fun r => o_date (w_obs r)) rows) /\
  exists g, group_data_to_complete_weeks 1 rows = Ok [g] /\ g_week g = 0.
Proof.
  intros rows. split.
  - apply frequency_iff. vm_compute. reflexivity.
  - unfold group_data_to_complete_weeks.
    replace (forallb (Z.eqb 1) _) with true by (vm_compute; reflexivity).
    eexists. split; [reflexivity|]. reflexivity.
Qed.
Example c18_example_weekly :
  let rows := map (fun i => mkW (mkObs "a" (i * week_ns) [Fin 1]) i (i * week_ns) []) [0;1;2] in
  evenly_spaced 7 (map (fun r => o_date (w_obs r)) rows) /\
  exists out, group_data_to_complete_weeks 1 rows = Ok out /\ List.length out = 3%nat.
Proof.
  intros rows. split.
  - apply frequency_iff. vm_compute. reflexivity.
  - eexists. split; reflexivity.
Qed.

(** C20. *)
Definition cell_rows (i : string) (d : Z) (rows : list obs) : list obs :=
  filter (fun r => String.eqb (o_item r) i && (o_date r =? d)) rows.
Definition zero_missing (r : obs) : obs :=
  mkObs (o_item r) (o_date r) (map (fun v => match v with NaN => Fin 0 | _ => v end) (o_vals r)).

Lemma zero_missing_fill0 r : zero_missing r = fill0 r.
Proof. unfold zero_missing, fill0. f_equal. apply map_ext. intros []; reflexivity. Qed.
Lemma cell_rows_eq i d rows : cell_rows i d rows = filter (fun r => okeqb (okey r) (i, d)) rows.
Proof. reflexivity. Qed.

Theorem c20_filled_grid cols ic dc k rows out :
  fill_missing_rows_with_zeros cols ic dc k rows = Ok out ->
  (* observed cells keep their rows, missing values set to zero *)
  (forall i d, cell_rows i d rows <> [] -> cell_rows i d out = map zero_missing (cell_rows i d rows)) /\
  (* absent combinations of an observed item and an observed date: exactly one zero row *)
  (forall i d, (exists r, In r rows /\ o_item r = i) -> (exists r, In r rows /\ o_date r = d) ->
     cell_rows i d rows = [] -> cell_rows i d out = [mkObs i d (repeat (Fin 0) k)]) /\
  (* nothing else *)
  (forall r, In r out -> (exists r', In r' rows /\ o_item r' = o_item r) /\
                         (exists r', In r' rows /\ o_date r' = o_date r)).
Proof.
  unfold fill_missing_rows_with_zeros. intros H. apply bind_ok in H as (u & _ & H).
  inversion H; subst; clear H. split; [|split].
  - intros i d Hne. rewrite !cell_rows_eq in *. rewrite fill_rows_cell.
    destruct (filter (fun r => okeqb (okey r) (i, d)) rows) as [|a l] eqn:E; [congruence|].
    assert (Ha : In a (filter (fun r => okeqb (okey r) (i, d)) rows)) by (rewrite E; now left).
    apply filter_In in Ha as [Ha Hk]. apply okeqb_eq in Hk. inversion Hk; subst.
    rewrite (proj2 (existsb_eqb_In _ String.eqb_eq _ _)) by (apply items_of_In; eauto).
    rewrite (proj2 (existsb_eqb_In _ Z.eqb_eq _ _)) by (apply dates_of_In; eauto).
    cbn [andb]. unfold filled. rewrite E. apply map_ext. intros. symmetry. apply zero_missing_fill0.
  - intros i d Hi Hd Hne. rewrite !cell_rows_eq in *. rewrite fill_rows_cell.
    rewrite (proj2 (existsb_eqb_In _ String.eqb_eq _ _)) by (now apply items_of_In).
    rewrite (proj2 (existsb_eqb_In _ Z.eqb_eq _ _)) by (now apply dates_of_In).
    cbn [andb]. unfold filled. now rewrite Hne.
  - intros r Hr. rewrite fill_rows_eq in Hr. apply in_flat_map in Hr as ([i d] & Hc & Hr).
    apply filled_key in Hr. inversion Hr; subst. apply in_prod_iff in Hc as [Hi Hd].
    apply items_of_In in Hi. apply dates_of_In in Hd. auto.
Qed.

Theorem c20_size_without_duplicates cols ic dc k rows out :
  fill_missing_rows_with_zeros cols ic dc k rows = Ok out ->
  NoDup (map okey rows) ->
  exists items dates, NoDup items /\ NoDup dates /\
    (forall i, In i items <-> exists r, In r rows /\ o_item r = i) /\
    (forall d, In d dates <-> exists r, In r rows /\ o_date r = d) /\
    Permutation (map okey out) (list_prod items dates) /\
    List.length out = (List.length items * List.length dates)%nat.
Proof.
  unfold fill_missing_rows_with_zeros. intros H HN. apply bind_ok in H as (u & _ & H).
  inversion H; subst; clear H.
  exists (items_of rows), (dates_of rows).
  split; [apply items_of_NoDup|]. split; [apply dates_of_NoDup|].
  split; [intros; apply items_of_In|]. split; [intros; apply dates_of_In|].
  assert (P : map okey (fill_rows k rows) = list_prod (items_of rows) (dates_of rows)).
  { rewrite fill_rows_eq.
    induction (list_prod (items_of rows) (dates_of rows)) as [|c cs IH]; simpl; auto.
    rewrite map_app, IH. change (c :: cs) with ([c] ++ cs)%list. f_equal.
    unfold filled. destruct (filter (fun r => okeqb (okey r) c) rows) as [|a [|b l]] eqn:E.
    - simpl. now destruct c.
    - simpl. f_equal. assert (Ha : In a (filter (fun r => okeqb (okey r) c) rows)) by (rewrite E; now left).
      apply filter_In in Ha as [_ Ha]. now apply okeqb_eq in Ha.
    - exfalso.
      assert (K : NoDup (map okey (filter (fun r => okeqb (okey r) c) rows))).
      { clear - HN. induction rows as [|r rows IH]; simpl; [constructor|]. inversion HN; subst.
        destruct (okeqb (okey r) c); simpl; auto. constructor; auto.
        intros Hin. apply H1. apply in_map_iff in Hin as (r' & E & Hr'). apply filter_In in Hr' as [Hr' _].
        rewrite <- E. now apply in_map. }
      assert (Ha : In a (filter (fun r => okeqb (okey r) c) rows)) by (rewrite E; now left).
      assert (Hb : In b (filter (fun r => okeqb (okey r) c) rows)) by (rewrite E; right; now left).
      apply filter_In in Ha as [_ Ha], Hb as [_ Hb]. apply okeqb_eq in Ha, Hb.
      rewrite E in K. simpl in K. inversion K; subst. apply H1. left. congruence. }
  split; [now rewrite P|].
  rewrite <- (map_length okey), P. apply prod_length.
Qed.

Theorem c20_missing_columns_raise cols ic dc k rows :
  (exists e, fill_missing_rows_with_zeros cols ic dc k rows = Err e) <-> ~ (In ic cols /\ In dc cols).
Proof.
  unfold fill_missing_rows_with_zeros, in_columns.
  rewrite <- (existsb_eqb_In _ String.eqb_eq ic), <- (existsb_eqb_In _ String.eqb_eq dc).
  destruct (existsb (String.eqb ic) cols), (existsb (String.eqb dc) cols); simpl;
    (split; [intros (e & H); try discriminate; intuition discriminate | intros H; try (exfalso; tauto); eauto]).
Qed.

(** C21. *)
Theorem c21_filling_is_idempotent cols ic dc k rows out :
  fill_missing_rows_with_zeros cols ic dc k rows = Ok out ->
  fill_missing_rows_with_zeros cols ic dc k out = Ok out.
Proof.
  unfold fill_missing_rows_with_zeros. intros H. apply bind_ok in H as (u & -> & H).
  inversion H; subst. simpl. now rewrite fill_idem.
Qed.

Theorem c21_totals_are_kept cols ic dc k rows out j (cond : string -> Z -> bool) :
  fill_missing_rows_with_zeros cols ic dc k rows = Ok out ->
  total (fun r => cond (o_item r) (o_date r)) (fun r => nth j (o_vals r) NaN) out =
  total (fun r => cond (o_item r) (o_date r)) (fun r => nth j (o_vals r) NaN) rows.
Proof.
  unfold fill_missing_rows_with_zeros. intros H. apply bind_ok in H as (u & _ & H).
  inversion H; subst; clear H.
  assert (TP : forall l1 l2, Permutation l1 l2 ->
    total (fun r => cond (o_item r) (o_date r)) (fun r => nth j (o_vals r) NaN) l1 =
    total (fun r => cond (o_item r) (o_date r)) (fun r => nth j (o_vals r) NaN) l2).
  { intros l1 l2 P. unfold total. induction P; simpl; auto; try congruence.
    rewrite !nadd_assoc. f_equal. apply nadd_comm. }
  rewrite (TP _ _ (fill_rows_perm k rows)).
  unfold total. rewrite fold_right_app.
  assert (Z0 : fold_right (fun r acc => nadd (if cond (o_item r) (o_date r) then
      match nth j (o_vals r) NaN with NaN => Fin 0 | v => v end else Fin 0) acc) (Fin 0)
      (map (fun c => mkObs (fst c) (snd c) (repeat (Fin 0) k)) (absent rows)) = Fin 0).
  { induction (absent rows) as [|c cs IH]; simpl; auto. rewrite IH.
    destruct (cond _ _); [|apply nadd_0_l].
    assert (N : match nth j (repeat (Fin 0) k) NaN with NaN => Fin 0 | v => v end = Fin 0).
    { destruct (nth_in_or_default j (repeat (Fin 0) k) NaN) as [Hi| ->]; auto.
      apply repeat_spec in Hi. now rewrite Hi. }
    rewrite N. apply nadd_0_l. }
  rewrite Z0. clear. induction rows as [|r rows IH]; simpl; auto. rewrite IH. f_equal.
  destruct (cond _ _); auto.
  assert (E : forall l, match nth j (map nan0 l) NaN with NaN => Fin 0 | v => v end =
                        match nth j l NaN with NaN => Fin 0 | v => v end).
  { intros l. destruct (Nat.lt_ge_cases j (List.length l)) as [L|L].
    - rewrite (nth_indep _ NaN (nan0 NaN)) by (now rewrite map_length). rewrite map_nth.
      destruct (nth j l NaN); reflexivity.
    - rewrite !nth_overflow; rewrite ?map_length; auto. }
  apply E.
Qed.

Example c20_example :
  exists out, fill_missing_rows_with_zeros ["item_id"; "date"; "clicks"] "item_id" "date" 1
    [mkObs "a" 0 [Fin 3]; mkObs "b" 1 [NaN]; mkObs "a" 0 [Fin 4]] = Ok out /\
  out = [mkObs "a" 0 [Fin 3]; mkObs "a" 0 [Fin 4]; mkObs "a" 1 [Fin 0]; mkObs "b" 0 [Fin 0]; mkObs "b" 1 [Fin 0]].
Proof. eexists. split; reflexivity. Qed.

(** C22.  The random generator may return any sample without replacement. *)
Definition sampler (draw : list string -> Z -> list string) : Prop :=
  forall pop n, NoDup pop -> 0 <= n <= Z.of_nat (List.length pop) ->
    NoDup (draw pop n) /\ incl (draw pop n) pop /\ Z.of_nat (List.length (draw pop n)) = n.

Lemma fraction_ok frac :
  orb (fleb frac f0) (fgtb frac f1) = false -> is_finite frac = true -> (0 < B2R frac <= 1)%R.
Proof.
  intros H F. apply orb_false_iff in H as [H1 H2].
  destruct f0_val as [F0 V0], f1_val as [F1 V1].
  assert (N1 : ~ (B2R frac <= 0)%R). { rewrite <- V0. rewrite <- fleb_fin by auto. congruence. }
  assert (N2 : ~ (1 < B2R frac)%R). { rewrite <- V1. rewrite <- fltb_fin by auto. unfold fltb. unfold fgtb in H2. congruence. }
  lra.
Qed.

Lemma sample_size_ok frac n s :
  Z.of_nat n <= 2 ^ 53 -> (0 < B2R frac <= 1)%R ->
  sample_size frac n = Ok s ->
  s = ZnearestE (rnd (B2R frac * INR n)) /\ 0 <= s <= Z.of_nat n.
Proof.
  intros Hn Hf. unfold sample_size. destruct (is_finite (fmul frac (of_Z (Z.of_nat n)))) eqn:E; [|discriminate].
  intros H; inversion H; subst; clear H.
  destruct (of_Z_correct (Z.of_nat n)) as [Fn Vn]; [lia|].
  assert (Ff : is_finite frac = true).
  { destruct (is_finite frac) eqn:X; auto. rewrite fmul_not_finite in E; auto. }
  destruct (fmul_cases frac (of_Z (Z.of_nat n)) Ff Fn) as [(A & B & C)|(A & B)]; [|congruence].
  rewrite C, Vn, <- INR_IZR_INZ. split; auto.
  assert (Pn : (0 <= INR n)%R) by apply pos_INR.
  assert (L : (0 <= rnd (B2R frac * INR n))%R).
  { rewrite <- rnd_0. apply rnd_le. nra. }
  assert (U : (rnd (B2R frac * INR n) <= INR n)%R).
  { rewrite INR_IZR_INZ. rewrite <- (rnd_IZR (Z.of_nat n)) at 2 by lia. apply rnd_le.
    rewrite <- INR_IZR_INZ. nra. }
  split.
  - rewrite <- (Znearest_imp (fun x => negb (Z.even x)) 0 0%Z) at 1.
    + apply (Zrnd_le (Znearest (fun x => negb (Z.even x)))). exact L.
    + rewrite Rminus_0_r, Rabs_R0. lra.
  - rewrite <- (Zrnd_IZR (Znearest (fun x => negb (Z.even x))) (Z.of_nat n)).
    apply (Zrnd_le (Znearest (fun x => negb (Z.even x)))). rewrite <- INR_IZR_INZ. exact U.
Qed.

Lemma downsample_kept {R} (item : R -> string) cols ic frac draw (rows : list R) out :
  sampler draw ->
  Z.of_nat (List.length (dedup String.eqb (map item rows))) <= 2 ^ 53 ->
  downsample_items item cols ic frac draw rows = Ok out ->
  (0 < B2R frac <= 1)%R /\
  ((B2R frac = 1%R /\ out = rows) \/
   exists kept, NoDup kept /\ (forall i, In i kept -> exists r, In r rows /\ item r = i) /\
     (exists all, NoDup all /\ (forall i, In i all <-> exists r, In r rows /\ item r = i) /\
        Z.of_nat (List.length kept) = ZnearestE (rnd (B2R frac * INR (List.length all)))) /\
     out = filter (fun r => if in_dec string_dec (item r) kept then true else false) rows).
Proof.
  intros HD HL H. unfold downsample_items in H.
  apply bind_ok in H as (u & H1 & H). apply raise_if_ok in H1.
  apply bind_ok in H as (u' & H2 & H). apply raise_if_ok in H2.
  destruct (feqb frac f1) eqn:E.
  - inversion H; subst.
    assert (F : is_finite frac = true).
    { destruct frac as [s|s| |s m e B]; try reflexivity; try discriminate E. now destruct s. }
    assert (V : B2R frac = 1%R).
    { destruct f1_val as [F1 V1]. unfold feqb in E. rewrite Beqb_correct in E by auto. rewrite V1 in E.
      revert E. case Req_bool_spec; congruence. }
    split; [rewrite V; lra|]. left. auto.
  - apply bind_ok in H as (s & H3 & H).
    assert (F : is_finite frac = true).
    { destruct (is_finite frac) eqn:X; auto. unfold sample_size in H3. rewrite fmul_not_finite in H3; auto. discriminate. }
    pose proof (fraction_ok _ H1 F) as HF. split; auto. right.
    set (pop := dedup String.eqb (map item rows)) in *.
    assert (Hpop : Z.of_nat (List.length pop) <= 2 ^ 53).
    { exact HL. }
    destruct (sample_size_ok _ _ _ Hpop HF H3) as [S1 S2].
    destruct (HD pop s) as (D1 & D2 & D3); [apply dedup_NoDup, String.eqb_eq|auto|].
    assert (PI : forall i, In i pop <-> exists r, In r rows /\ item r = i).
    { intros i. unfold pop. rewrite (dedup_In _ String.eqb_eq), in_map_iff. split; intros (r & ? & ?); eauto. }
    exists (draw pop s). split; auto. split.
    { intros i Hi. apply PI. now apply D2. }
    split.
    { exists pop. split; [apply dedup_NoDup, String.eqb_eq|]. split; auto. congruence. }
    inversion H; subst. apply filter_ext. intros r. apply eq_true_iff_eq.
    rewrite (existsb_eqb_In _ String.eqb_eq).
    destruct (in_dec string_dec (item r) (draw pop _)); intuition discriminate.
Qed.

Theorem c22_downsampling_keeps_whole_items {R} (item : R -> string) cols ic frac draw (rows : list R) out :
  sampler draw ->
  Z.of_nat (List.length rows) <= 2 ^ 53 ->
  downsample_items item cols ic frac draw rows = Ok out ->
  (0 < B2R frac <= 1)%R /\
  ((B2R frac = 1%R /\ out = rows) \/
   exists kept, NoDup kept /\ (forall i, In i kept -> exists r, In r rows /\ item r = i) /\
     (exists all, NoDup all /\ (forall i, In i all <-> exists r, In r rows /\ item r = i) /\
        Z.of_nat (List.length kept) = ZnearestE (rnd (B2R frac * INR (List.length all)))) /\
     out = filter (fun r => if in_dec string_dec (item r) kept then true else false) rows).
Proof.
  intros HD HL H. eapply downsample_kept; eauto.
  pose proof (dedup_length String.eqb (map item rows)) as L. rewrite map_length in L. lia.
Qed.

(** it raises exactly on fractions outside (0,1] (or NaN) and unknown columns *)
Theorem c22_downsampling_raises_iff {R} (item : R -> string) cols ic frac draw (rows : list R) :
  Z.of_nat (List.length rows) <= 2 ^ 53 ->
  (is_ok (downsample_items item cols ic frac draw rows) <->
   is_finite frac = true /\ (0 < B2R frac <= 1)%R /\ In ic cols).
Proof.
  intros HL. split.
  - intros (out & H). unfold downsample_items in H.
    apply bind_ok in H as (u & H1 & H). apply raise_if_ok in H1.
    apply bind_ok in H as (u' & H2 & H). apply raise_if_ok in H2.
    apply negb_false_iff in H2. apply (existsb_eqb_In _ String.eqb_eq) in H2.
    assert (F : is_finite frac = true).
    { destruct (feqb frac f1) eqn:E.
      - destruct frac as [s|s| |s m e B]; try reflexivity; try discriminate E. now destruct s.
      - apply bind_ok in H as (s & H3 & H).
        destruct (is_finite frac) eqn:X; auto. unfold sample_size in H3. rewrite fmul_not_finite in H3; auto. discriminate. }
    split; auto. split; auto. now apply fraction_ok.
  - intros (F & V & I). unfold downsample_items.
    destruct f0_val as [F0 V0], f1_val as [F1 V1].
    replace (fleb frac f0) with false.
    2:{ symmetry. destruct (fleb frac f0) eqn:X; auto. apply fleb_fin in X; auto. lra. }
    replace (fgtb frac f1) with false.
    2:{ symmetry. destruct (fgtb frac f1) eqn:X; auto. apply fltb_fin in X; auto. lra. }
    unfold in_columns. rewrite (proj2 (existsb_eqb_In _ String.eqb_eq ic cols) I).
    cbn [orb negb raise_if bind]. destruct (feqb frac f1); [eexists; reflexivity|].
    unfold sample_size. set (n := List.length (dedup String.eqb (map item rows))).
    assert (Hn : Z.of_nat n <= 2 ^ 53).
    { pose proof (dedup_length String.eqb (map item rows)). rewrite map_length in H. unfold n. lia. }
    destruct (of_Z_correct (Z.of_nat n)) as [Fn Vn]; [lia|].
    destruct (fmul_cases frac (of_Z (Z.of_nat n)) F Fn) as [(A & B & C)|(A & B)].
    + rewrite B. eexists. reflexivity.
    + exfalso. apply A. apply fits_small. rewrite Vn.
      apply Rle_trans with (bpow radix2 53); [|apply bpow_le; lia].
      rewrite Rabs_pos_eq by (apply Rmult_le_pos; [lra|apply IZR_le; lia]).
      apply Rle_trans with (1 * IZR (Z.of_nat n))%R.
      * apply Rmult_le_compat_r; [apply IZR_le; lia|lra].
      * rewrite Rmult_1_l. rewrite <- (Rabs_pos_eq (IZR (Z.of_nat n))) by (apply IZR_le; lia).
        apply IZR_le_bpow; lia.
Qed.

Example c22_sampler_exists : sampler (fun pop n => firstn (Z.to_nat n) pop).
Proof.
  intros pop n Hn Hl. split; [|split].
  - generalize (Z.to_nat n). clear Hl. induction Hn as [|a l Ha Hn IH]; intros [|m]; simpl; constructor; auto.
    intros Hin. apply Ha. rewrite <- (firstn_skipn m l). apply in_or_app. now left.
  - intros x Hx. rewrite <- (firstn_skipn (Z.to_nat n) pop). apply in_or_app. now left.
  - rewrite firstn_length. lia.
Qed.
Example c22_example : exists out,
  downsample_items o_item ["item_id"] "item_id" (flit 1 2) (fun pop n => firstn (Z.to_nat n) pop)
    [mkObs "b" 0 []; mkObs "a" 0 []; mkObs "b" 1 []] = Ok out.
Proof.
  apply c22_downsampling_raises_iff; [vm_compute; discriminate|].
  change (flit 1 2) with fhalf. destruct fhalf_val as [F V]. rewrite V. split; auto.
  split; [lra|now left].
Qed.

Print Assumptions c17_week_id_and_start.
Print Assumptions c17_given_start_labels_every_row.
Print Assumptions c17_default_start_is_earliest_date.
Print Assumptions c18_daily_data_gives_complete_weeks_with_exact_totals.
Print Assumptions c18_weekly_data_is_returned_unchanged.
Print Assumptions c18_totals_of_complete_weeks_are_conserved.
Print Assumptions c19_raises_iff_neither_daily_nor_weekly.
Print Assumptions c19_single_date_data_comes_back_empty.
Print Assumptions c19_weekly_data_is_never_grouped_refuted.
Print Assumptions c20_filled_grid.
Print Assumptions c20_size_without_duplicates.
Print Assumptions c20_missing_columns_raise.
Print Assumptions c21_filling_is_idempotent.
Print Assumptions c21_totals_are_kept.
Print Assumptions c22_downsampling_keeps_whole_items.
Print Assumptions c22_downsampling_raises_iff.
