(** Properties C35 and C78: the prepared experiment data. *)
From Coq Require Import ZArith Reals List String Bool Lia Lra Permutation Sorting.Sorted.
From Flocq Require Import Core BinarySingleNaN.
Require Import Verif.Base Verif.Num Verif.Frame Verif.F64 Verif.ListLib Verif.Design_Model
  Verif.Design_Proofs Verif.Design_Yaml_Proofs Verif.Design_Props
  Verif.Rows_Model Verif.Rows_Spec Verif.Rows_Proofs Verif.Rows_Props
  Verif.Checks_Model Verif.Checks_Spec Verif.Checks_Proofs Verif.Checks_Props
  Verif.Periods_Model Verif.Periods_Proofs Verif.Periods_Props
  Verif.Pipeline_Model Verif.Pipeline_Spec Verif.Pipeline_Proofs.
Import ListNotations.
Open Scope string_scope.
Open Scope Z_scope.

Definition positive (x : num) : Prop := match x with Fin r => (0 < r)%R | PInf => True | _ => False end.

(** the metric columns of a prepared row: the raw metrics, then one 0/1 indicator per
    requested "at least one" metric *)
Definition metric_columns (metrics : list string) (alo : list (string * string)) (vals : list num)
    (cols : list (string * num)) : Prop :=
  exists extra, cols = (combine metrics vals ++ extra)%list /\
    Forall2 (fun mn c => fst c = snd mn /\ exists v, In (fst mn, v) (combine metrics vals) /\
       ((positive v /\ snd c = Fin 1) \/ (~ positive v /\ snd c = Fin 0))) alo extra.

Lemma indicator_spec x : (positive x /\ indicator x = Fin 1) \/ (~ positive x /\ indicator x = Fin 0).
Proof.
  unfold indicator. destruct x as [r| | |]; cbn; auto.
  case Rlt_bool_spec; intros; [left|right]; split; auto; lra.
Qed.

Lemma get_num_In m l x : NoDup (map fst l) -> (get_num m l = Some x <-> In (m, x) l).
Proof.
  induction l as [|[c v] l IH]; cbn; intros N; [split; [discriminate|intros []]|].
  inversion N as [|? ? N1 N2]; subst. destruct (String.eqb_spec m c) as [->|D].
  - split; [intros E; inversion E; auto|]. intros [E|H]; [congruence|].
    exfalso. apply N1. apply in_map_iff. exists (c, x). auto.
  - rewrite IH by auto. split; auto. intros [E|H]; [congruence|auto].
Qed.

Lemma get_num_app m l e x : get_num m l = Some x -> get_num m (l ++ e)%list = Some x.
Proof. induction l as [|[c v] l IH]; cbn; [discriminate|]. destruct (String.eqb m c); auto. Qed.

Lemma set_num_fresh c v l : ~ In c (map fst l) -> set_num c v l = (l ++ [(c, v)])%list.
Proof.
  induction l as [|[c' v'] l IH]; cbn; intros H; auto.
  destruct (String.eqb_spec c c') as [->|D]; [tauto|]. rewrite IH by tauto. reflexivity.
Qed.

Lemma at_least_one_acc alo l acc cols :
  NoDup (map fst l) -> (forall m n, In (m, n) alo -> In m (map fst l) /\ ~ In n (map fst (l ++ acc)%list)) ->
  NoDup (map snd alo) ->
  (at_least_one_row alo (l ++ acc)%list = Ok cols <->
   exists extra, cols = (l ++ acc ++ extra)%list /\
    Forall2 (fun mn c => fst c = snd mn /\ exists v, In (fst mn, v) l /\
       ((positive v /\ snd c = Fin 1) \/ (~ positive v /\ snd c = Fin 0))) alo extra).
Proof.
  intros NL. revert acc. induction alo as [|[m n] alo IH]; intros acc HS NA; cbn [at_least_one_row].
  - split.
    + intros E. inversion E; subst. exists []. rewrite app_nil_r. auto.
    + intros (extra & -> & F). inversion F; subst. now rewrite app_nil_r.
  - destruct (HS m n (or_introl eq_refl)) as [Hm Hn].
    apply in_map_iff in Hm as ([m' x] & Em & Hx). cbn in Em. subst m'.
    pose proof (proj2 (get_num_In m l x NL) Hx) as G. rewrite (get_num_app _ _ acc _ G).
    rewrite set_num_fresh by exact Hn. rewrite <- app_assoc.
    inversion NA as [|? ? NA1 NA2]; subst. cbn [snd] in *.
    rewrite IH; [|intros m' n' Hmn|exact NA2].
    2:{ destruct (HS m' n' (or_intror Hmn)) as [A B]. split; [exact A|].
        rewrite map_app in *. rewrite map_app. cbn. intros C. apply in_app_or in C as [C|C].
        - apply B. apply in_or_app. now left.
        - apply in_app_or in C as [C|[<-|[]]].
          + apply B. apply in_or_app. now right.
          + apply NA1. apply in_map_iff. exists (m', n). auto. }
    split.
    + intros (extra & -> & F). exists ((n, indicator x) :: extra). rewrite <- app_assoc. split; [reflexivity|].
      constructor; auto. cbn. split; auto. exists x. split; auto. apply indicator_spec.
    + intros (extra & -> & F). inversion F as [|? [n' y] ? extra' (E1 & v & E2 & E3) F']; subst. cbn in E1, E2, E3. subst n'.
      exists extra'. split; auto. rewrite <- app_assoc. cbn.
      assert (v = x) as ->.
      { apply (get_num_In m l v NL) in E2. congruence. }
      assert (y = indicator x) as ->; [|reflexivity].
      destruct (indicator_spec x) as [[P1 ->]|[P1 ->]], E3 as [[P2 ->]|[P2 ->]]; tauto.
Qed.

Definition fresh_indicators (metrics : list string) (alo : list (string * string)) : Prop :=
  (forall m n, In (m, n) alo -> In m metrics /\ ~ In n metrics) /\ NoDup (map snd alo).

Lemma at_least_one_row_spec metrics alo vals cols :
  NoDup metrics -> fresh_indicators metrics alo -> List.length vals = List.length metrics ->
  (at_least_one_row alo (combine metrics vals) = Ok cols <-> metric_columns metrics alo vals cols).
Proof.
  intros NM [F1 F2] L. assert (MF : map fst (combine metrics vals) = metrics).
  { clear - L. revert vals L. induction metrics; intros [|v vals]; cbn; intros L; try discriminate; auto.
    f_equal. apply IHmetrics. lia. }
  rewrite <- (app_nil_r (combine metrics vals)) at 1.
  rewrite (at_least_one_acc alo (combine metrics vals) [] cols).
  - unfold metric_columns. cbn [app]. reflexivity.
  - now rewrite MF.
  - rewrite app_nil_r, MF. exact F1.
  - exact F2.
Qed.

(** the outer merge adds nothing to observed values *)
Section Merge.
  Variables (k : nat) (perf : list obs) (assigned : list (string * Z)) (first : Z) (merged : list obs).
  Hypothesis Hfirst : seen_date perf first.
  Hypothesis Hmerged : forall r, In r merged <->
    In r perf \/ exists i, In i (missing_items perf assigned) /\ r = mkObs i first (repeat NaN k).

  Lemma missing_items_In i : In i (missing_items perf assigned) <-> In i (map fst assigned) /\ ~ seen_item perf i.
  Proof.
    unfold missing_items. rewrite (dedup_In _ String.eqb_eq), filter_In, negb_true_iff.
    assert (E : existsb (String.eqb i) (map o_item perf) = true <-> seen_item perf i).
    { rewrite (existsb_eqb_In _ String.eqb_eq), in_map_iff. unfold seen_item. split; intros (r & ? & ?); eauto. }
    rewrite <- E. destruct (existsb _ _); intuition discriminate.
  Qed.

  Lemma merged_seen_item i : seen_item merged i <-> seen_item perf i \/ In i (map fst assigned) /\ ~ seen_item perf i.
  Proof.
    rewrite <- missing_items_In. unfold seen_item. split.
    - intros (r & Hr & <-). apply Hmerged in Hr as [Hr|(i & Hi & ->)]; eauto.
    - intros [(r & Hr & <-)|Hi].
      + exists r. split; auto. apply Hmerged. auto.
      + exists (mkObs i first (repeat NaN k)). split; auto. apply Hmerged. eauto.
  Qed.

  Lemma merged_seen_date d : seen_date merged d <-> seen_date perf d.
  Proof.
    unfold seen_date. split.
    - intros (r & Hr & <-). apply Hmerged in Hr as [Hr|(i & Hi & ->)]; eauto.
    - intros (r & Hr & <-). exists r. split; auto. apply Hmerged. auto.
  Qed.

  Lemma merged_values i d vals : value_or_zero k merged i d vals <-> value_or_zero k perf i d vals.
  Proof.
    assert (Z0 : map (fun v => match v with NaN => Fin 0 | _ => v end) (repeat NaN k) = repeat (Fin 0) k).
    { clear. induction k; cbn; congruence. }
    unfold value_or_zero. split.
    - intros [(r & Hr & E1 & E2 & E3)|[HN HV]].
      + apply Hmerged in Hr as [Hr|(j & Hj & ->)].
        * left. eauto.
        * right. cbn in *. subst. split; [|exact Z0]. intros r0 R1 R2 R3.
          apply missing_items_In in Hj as [_ Hj]. apply Hj. exists r0. auto.
      + right. split; auto. intros r0 R1 R2 R3. apply (HN r0); auto. apply Hmerged. auto.
    - intros [(r & Hr & E1 & E2 & E3)|[HN HV]].
      + left. exists r. split; auto. apply Hmerged. auto.
      + destruct (in_dec string_dec i (missing_items perf assigned)) as [Hi|Hi].
        * destruct (Z.eq_dec d first) as [->|D].
          -- left. exists (mkObs i first (repeat NaN k)). cbn. rewrite Z0. split; [|auto]. apply Hmerged. eauto.
          -- right. split; auto. intros r0 R1 R2 R3. apply Hmerged in R1 as [R1|(j & Hj & ->)]; [eauto|].
             cbn in *. congruence.
        * right. split; auto. intros r0 R1 R2 R3. apply Hmerged in R1 as [R1|(j & Hj & ->)]; [eauto|].
          cbn in *. congruence.
  Qed.
End Merge.

Lemma Forall2_In_r {A B} (P : A -> B -> Prop) l m b : Forall2 P l m -> In b m -> exists a, In a l /\ P a b.
Proof.
  induction 1 as [|x y l m H F IH]; [intros []|]. intros [<-|Hb].
  - exists x. split; [now left|auto].
  - destruct (IH Hb) as (a & ? & ?). exists a. split; [now right|auto].
Qed.
Lemma Forall2_In_l {A B} (P : A -> B -> Prop) l m a : Forall2 P l m -> In a l -> exists b, In b m /\ P a b.
Proof.
  induction 1 as [|x y l m H F IH]; [intros []|]. intros [<-|Hb].
  - exists y. split; [now left|auto].
  - destruct (IH Hb) as (b & ? & ?). exists b. split; [now right|auto].
Qed.

(** the steps of a successful call *)
Lemma prepare_experiment_ok by_date binom outer perf assigned d metrics start concluded neg alo skip out :
  (forall l, Permutation (outer l) l) ->
  prepare_experiment by_date binom outer perf assigned d metrics start concluded neg alo skip = Ok out ->
  assigned <> [] /\ perf <> [] /\
  validate_experiment_data by_date binom (experiment_view out) d metrics start concluded neg skip = Ok tt /\
  exists lab, label_fun (par d) 0 = Ok lab /\
  (forall r, In r out <->
     In (e_item r, e_arm r) assigned /\ seen_date perf (e_date r) /\
     in_week start (e_date r) (e_week r) /\ e_start r = start + e_week r * week_ns /\
     e_period r = lab (e_week r) /\
     exists vals, value_or_zero (List.length metrics) perf (e_item r) (e_date r) vals /\
       at_least_one_row alo (combine metrics vals) = Ok (e_cols r)).
Proof.
  intros HP H. unfold prepare_experiment in H.
  apply bind_ok in H as (u1 & H1 & H). apply raise_if_ok in H1.
  split; [destruct assigned; [discriminate|discriminate]|].
  apply bind_ok in H as (first & H2 & H).
  assert (HF : seen_date perf first /\ perf <> []).
  { destruct perf as [|r0 perf]; [discriminate|]. inversion H2. split; [exists r0; split; [now left|auto]|discriminate]. }
  destruct HF as [HF NE]. split; [exact NE|].
  set (merged := outer (perf ++ map (fun i => mkObs i first (repeat NaN (List.length metrics))) (missing_items perf assigned))%list) in *.
  assert (HM : forall r, In r merged <->
    In r perf \/ exists i, In i (missing_items perf assigned) /\ r = mkObs i first (repeat NaN (List.length metrics))).
  { intros r. unfold merged. split.
    - intros Hr. apply (Permutation_in _ (HP _)) in Hr. apply in_app_or in Hr as [Hr|Hr]; [auto|right].
      apply in_map_iff in Hr as (i & <- & Hi). eauto.
    - intros Hr. apply (Permutation_in _ (Permutation_sym (HP _))). apply in_or_app. destruct Hr as [Hr|(i & Hi & ->)]; [auto|right].
      apply in_map_iff. eauto. }
  clearbody merged.
  apply bind_ok in H as (filled & H3 & H). unfold fill_missing_rows_with_zeros in H3.
  apply bind_ok in H3 as (u2 & _ & H3). inversion H3; subst filled; clear H3.
  apply bind_ok in H as (lab & H4 & H). apply bind_ok in H as (wc & H5 & H).
  apply bind_ok in H as ([] & H6 & H). match type of H with Ok ?x = _ => assert (HO : x = out) by congruence end. clear H. rewrite HO in H6.
  split; [exact H6|]. exists lab. split; [exact H4|].
  apply mapM_ok in H5.
  assert (WI : forall w c, In (w, c) wc <->
     In (w_obs w) (fill_rows (List.length metrics) merged) /\ in_week start (o_date (w_obs w)) (w_week w) /\
     w_start w = start + w_week w * week_ns /\ w_extra w = [] /\
     at_least_one_row alo (combine metrics (o_vals (w_obs w))) = Ok c).
  { assert (INW : forall r, In r (add_weeks (Some start) (fill_rows (List.length metrics) merged)) <->
       In (w_obs r) (fill_rows (List.length metrics) merged) /\ in_week start (o_date (w_obs r)) (w_week r) /\
                 w_start r = start + w_week r * week_ns /\ w_extra r = []).
    { intros r. cbn [add_weeks]. rewrite in_map_iff. split.
      - intros (r0 & <- & H0). cbn. split; auto. split; [now apply week_id_iff|]. split; [apply week_start_eq|reflexivity].
      - intros (A1 & A2 & A3 & A4). exists (w_obs r). split; auto. apply week_id_iff in A2.
        destruct r as [o w s e]. cbn in *. subst. f_equal. now rewrite week_start_eq. }
    intros w c. split.
    - intros Hw. apply (Forall2_In_r _ _ _ _ H5) in Hw as (w' & Hw & E). apply bind_ok in E as (c' & E1 & E2).
      inversion E2; subst. apply INW in Hw. tauto.
    - intros (A1 & A2 & A3 & A4 & A5). assert (Hw : In w (add_weeks (Some start) (fill_rows (List.length metrics) merged))) by (apply INW; auto).
      apply (Forall2_In_l _ _ _ _ H5) in Hw as ([w' c'] & Hw & E). apply bind_ok in E as (c'' & E1 & E2).
      inversion E2; subst. rewrite A5 in E1. inversion E1; subst. exact Hw. }
  intros r. rewrite <- HO, in_flat_map. split.
  - intros ([w c] & Hw & Hr). apply WI in Hw as (A1 & A2 & A3 & A4 & A5). cbn [fst snd] in Hr.
    apply in_map_iff in Hr as ([i a] & <- & Hi). apply filter_In in Hi as [Hi E]. apply String.eqb_eq in E. cbn in *. subst i.
    apply fill_rows_In in A1 as (B1 & B2 & B3). rewrite (merged_seen_date _ _ _ _ _ HF HM) in B2.
    rewrite (merged_values _ _ _ _ _ HF HM) in B3. split; auto. split; auto. split; auto. split; auto. split; auto. eauto.
  - intros (A1 & A2 & A3 & A4 & A5 & vals & A6 & A7).
    exists (mkW (mkObs (e_item r) (e_date r) vals) (e_week r) (e_start r) [], e_cols r). split.
    + apply WI. cbn. split; auto. apply fill_rows_In. cbn. split; [|split].
      * apply (merged_seen_item _ _ _ _ _ HM).
        assert (SD : seen_item perf (e_item r) \/ ~ seen_item perf (e_item r)).
        { destruct (in_dec string_dec (e_item r) (map o_item perf)) as [I|I].
          - left. apply in_map_iff in I as (o & ? & ?). exists o. auto.
          - right. intros (o & Ho & E). apply I. apply in_map_iff. eauto. }
        destruct SD as [S|S]; [auto|right]. split; auto. apply in_map_iff. eexists. split; [|exact A1]. reflexivity.
      * apply (merged_seen_date _ _ _ _ _ HF HM). exact A2.
      * apply (merged_values _ _ _ _ _ HF HM). exact A6.
    + cbn [fst snd]. apply in_map_iff. exists (e_item r, e_arm r). split.
      * cbn. rewrite <- A5. now destruct r.
      * apply filter_In. cbn. split; auto. apply String.eqb_refl.
Qed.

(** C35.  The rows of the prepared data: assigned items only, every observed date, the values of
    the performance data or zeros, the arm of the assignment, the week counted from the start
    date and the period of this week. *)
Theorem c35_rows_are_assigned_items_times_observed_dates
    by_date binom outer perf assigned d metrics start concluded neg alo skip out :
  (forall l, Permutation (outer l) l) ->
  NoDup metrics -> fresh_indicators metrics alo ->
  (forall r, In r perf -> List.length (o_vals r) = List.length metrics) ->
  prepare_experiment by_date binom outer perf assigned d metrics start concluded neg alo skip = Ok out ->
  exists lab, label_fun (par d) 0 = Ok lab /\
  (forall r, In r out <->
     In (e_item r, e_arm r) assigned /\ seen_date perf (e_date r) /\
     in_week start (e_date r) (e_week r) /\ e_start r = start + e_week r * week_ns /\
     e_period r = lab (e_week r) /\
     exists vals, value_or_zero (List.length metrics) perf (e_item r) (e_date r) vals /\
       metric_columns metrics alo vals (e_cols r)).
Proof.
  intros HP NM FR HL H. apply prepare_experiment_ok in H as (_ & _ & _ & lab & L & HI); [|exact HP].
  exists lab. split; [exact L|]. intros r. rewrite HI.
  assert (LV : forall vals, value_or_zero (List.length metrics) perf (e_item r) (e_date r) vals -> List.length vals = List.length metrics).
  { intros vals [(o & Ho & _ & _ & ->)|[_ ->]]; [rewrite map_length; auto|apply repeat_length]. }
  split; intros (A1 & A2 & A3 & A4 & A5 & vals & A6 & A7); repeat (split; [assumption|]); exists vals; (split; [assumption|]);
    eapply at_least_one_row_spec; eauto.
Qed.

Lemma experiment_check_passed by_date binom v d metrics start concluded neg skip n r :
  validate_experiment_data by_date binom v d metrics start concluded neg skip = Ok tt ->
  In (n, r)
    [("primary_metric_in_metrics", check_primary metrics (metric (par d)));
     ("no_nulls", check_no_nulls (v_cells v));
     ("no_duplicate_items_per_date", check_no_duplicates (combine (v_dates v) (v_items v)));
     ("dates_are_daily_or_weekly", check_dates_spacing (v_dates v));
     ("week_ids_are_consecutive_integers", check_week_ids by_date (combine (v_weeks v) (v_dates v)));
     ("number_of_items_matches_design", check_n_items (v_items v) d);
     ("experiment_dates_match_design", check_dates_match (v_dates v) d start concluded);
     ("treatment_assignment_is_unique", check_unique_arm (combine (v_items v) (v_arms v)))] ->
  ~ In n skip -> r = Ok false.
Proof.
  intros H Hin Hs. rewrite experiment_run_all in H. apply bind_ok in H as (us & _ & H).
  destruct (run_all_ok _ _ H n r) as (b & -> & [-> |C]); [|reflexivity|contradiction].
  cbn [In] in *. intuition auto.
Qed.

(** every assigned item has a row at every observed date *)
Lemma prepare_experiment_covers by_date binom outer perf assigned d metrics start concluded neg alo skip out :
  (forall l, Permutation (outer l) l) ->
  prepare_experiment by_date binom outer perf assigned d metrics start concluded neg alo skip = Ok out ->
  forall i day, (exists a, In (i, a) assigned) -> seen_date perf day ->
     exists r, In r out /\ e_item r = i /\ e_date r = day.
Proof.
  intros HP H'.
  intros i day (a & Ha) Hd. unfold prepare_experiment in H'.
    apply bind_ok in H' as (u1 & _ & H'). apply bind_ok in H' as (first & H2 & H').
    apply bind_ok in H' as (filled & H3 & H'). apply bind_ok in H' as (lab' & H4 & H').
    apply bind_ok in H' as (wc & H5 & H'). apply bind_ok in H' as ([] & H6 & H').
    match type of H' with Ok ?x = _ => assert (HO : x = out) by congruence end. clear H' H6.
    assert (FI : seen_date perf first).
    { destruct perf as [|r0 perf]; [discriminate|]. inversion H2. exists r0. split; [now left|auto]. }
    unfold fill_missing_rows_with_zeros in H3. apply bind_ok in H3 as (u2 & _ & H3). inversion H3; subst filled; clear H3.
    apply mapM_ok in H5.
    set (merged := outer _) in *.
    assert (HM : forall r, In r merged <->
      In r perf \/ exists i, In i (missing_items perf assigned) /\ r = mkObs i first (repeat NaN (List.length metrics))).
    { intros r. unfold merged. split.
      - intros Hr. apply (Permutation_in _ (HP _)) in Hr. apply in_app_or in Hr as [Hr|Hr]; [auto|right].
        apply in_map_iff in Hr as (j & <- & Hj). eauto.
      - intros Hr. apply (Permutation_in _ (Permutation_sym (HP _))). apply in_or_app. destruct Hr as [Hr|(j & Hj & ->)]; [auto|right].
        apply in_map_iff. eauto. }
    clearbody merged.
    assert (SI : seen_item merged i).
    { apply (merged_seen_item _ _ _ _ _ HM).
      destruct (in_dec string_dec i (map o_item perf)) as [I|I].
      - left. apply in_map_iff in I as (o & ? & ?). exists o. auto.
      - right. split; [apply in_map_iff; exists (i, a); auto|]. intros (o & Ho & E). apply I. apply in_map_iff. eauto. }
    destruct (fill_rows_pair (List.length metrics) merged i day SI) as (o & O1 & O2 & O3).
    { now apply (merged_seen_date _ _ _ _ _ FI HM). }
    assert (Hw : In (mkW o (week_id start (o_date o)) (week_start start (o_date o)) [])
               (add_weeks (Some start) (fill_rows (List.length metrics) merged))).
    { cbn [add_weeks]. apply in_map_iff. exists o. auto. }
    apply (Forall2_In_l _ _ _ _ H5) in Hw as ([w c] & Hw & E). apply bind_ok in E as (c' & E1 & E2). inversion E2; subst w c'.
    eexists. split.
    - rewrite <- HO. apply in_flat_map. eexists. split; [exact Hw|]. cbn [fst snd]. apply in_map_iff.
      exists (i, a). split; [reflexivity|]. apply filter_In. split; auto. cbn. rewrite O2. apply String.eqb_refl.
    - cbn. auto.
Qed.

(** ... exactly one row for every assigned item and observed date *)
Theorem c35_one_row_per_assigned_item_and_date
    by_date binom outer perf assigned d metrics start concluded neg alo skip out :
  (forall l, Permutation (outer l) l) ->
  ~ In "no_duplicate_items_per_date" skip ->
  prepare_experiment by_date binom outer perf assigned d metrics start concluded neg alo skip = Ok out ->
  (forall i day, (exists a, In (i, a) assigned) -> seen_date perf day ->
     exists r, In r out /\ e_item r = i /\ e_date r = day) /\
  NoDup (map (fun r => (e_item r, e_date r)) out).
Proof.
  intros HP HS H. assert (EX := prepare_experiment_covers _ _ _ _ _ _ _ _ _ _ _ _ _ HP H).
  apply prepare_experiment_ok in H as (NA & NP & HV & lab & L & HI); [|exact HP].
  split; [exact EX|].
  assert (NE : out <> []).
  { destruct assigned as [|[i a] ?]; [congruence|]. destruct perf as [|r0 perf]; [congruence|].
    destruct (EX i (o_date r0)) as (r & Hr & _).
    - exists a. now left.
    - exists r0. split; [now left|reflexivity].
    - intros ->. destruct Hr. }
  assert (CK := experiment_check_passed _ _ _ _ _ _ _ _ _ "no_duplicate_items_per_date" _ HV ltac:(cbn; tauto) HS).
  cbn [experiment_view v_dates v_items] in CK. rewrite combine_map in CK.
  apply c25_passes_iff_uniform in CK; [|destruct out; [congruence|discriminate]].
  destruct CK as (n & CK). clear - CK.
  assert (ND : forall day, NoDup (map e_item (filter (fun r => e_date r =? day) out))).
  { intros day. destruct (in_dec Z.eq_dec day (map e_date out)) as [I|I].
    - destruct (CK day) as [A _]; [rewrite map_map; exact I|].
      unfold items_on in A. clear - A. revert A. generalize out as l.
      induction l as [|r l IH]; cbn; auto. destruct (e_date r =? day); cbn; auto.
      intros A. inversion A; subst. constructor; auto. intros C. apply H1.
      apply in_map_iff in C as (x & E & Hx). apply filter_In in Hx as [Hx Dx].
      apply in_map_iff. exists (e_date x, e_item x). split; auto. apply filter_In. split; auto.
      apply in_map_iff. eauto.
    - rewrite filter_none; [constructor|]. intros r Hr. apply Z.eqb_neq. intros <-. apply I. now apply in_map. }
  clear CK. induction out as [|r l IH]; cbn [map]; constructor.
  - intros C. apply in_map_iff in C as (x & E & Hx). inversion E as [[E1 E2]].
    specialize (ND (e_date r)). cbn [filter] in ND. rewrite Z.eqb_refl in ND. cbn [map] in ND. inversion ND; subst.
    apply H1. apply in_map_iff. exists x. split; auto. apply filter_In. split; auto. now apply Z.eqb_eq.
  - apply IH. intros day. specialize (ND day). cbn [filter] in ND. destruct (e_date r =? day); auto.
    now inversion ND.
Qed.

Lemma label_none_iff d lab w : mk_design (par d) = Ok d -> label_fun (par d) 0 = Ok lab ->
  (lab w = None <-> w < - pretest (par d) \/ runtime (par d) <= w).
Proof.
  intros HD L. destruct (crossover (par d)) eqn:C.
  - destruct (c13_crossover_periods _ _ _ _ HD C L) as (wash & h & _ & _ & _ & _ & S).
    destruct (S w) as (_ & _ & _ & _ & _ & A). rewrite A. reflexivity.
  - destruct (c12_regular_periods _ _ _ w _ HD C L) as (_ & _ & A). rewrite A. reflexivity.
Qed.

(** C78.  With the null check active, preparation succeeds only if every observed date lies in
    the pretest weeks or the runtime weeks; together with the date check the data then starts
    exactly on the first pretest day: data that reaches further back is rejected. *)
Theorem c78_prepared_dates_lie_in_the_experiment
    by_date binom outer perf assigned d metrics start concluded neg alo skip out :
  (forall l, Permutation (outer l) l) -> mk_design (par d) = Ok d ->
  ~ In "no_nulls" skip -> ~ In "no_duplicate_items_per_date" skip ->
  prepare_experiment by_date binom outer perf assigned d metrics start concluded neg alo skip = Ok out ->
  (forall day, seen_date perf day ->
     start - pretest (par d) * week_ns <= day < start + runtime (par d) * week_ns) /\
  (forall r, In r out -> e_period r <> None) /\
  (~ In "experiment_dates_match_design" skip ->
     seen_date perf (start - pretest (par d) * week_ns) /\
     (concluded = true -> exists day, seen_date perf day /\ start + (runtime (par d) - 1) * week_ns <= day)).
Proof.
  intros HP HD HS1 HS2 H.
  destruct (c35_one_row_per_assigned_item_and_date _ _ _ _ _ _ _ _ _ _ _ _ _ HP HS2 H) as [EX _].
  apply prepare_experiment_ok in H as (NA & NP & HV & lab & L & HI); [|exact HP].
  assert (NUL : forall r, In r out -> e_period r <> None).
  { intros r Hr E.
    assert (CK := experiment_check_passed _ _ _ _ _ _ _ _ _ "no_nulls" (check_no_nulls (v_cells (experiment_view out))) HV ltac:(right; left; reflexivity) HS1).
    destruct (no_nulls_decides (v_cells (experiment_view out))) as (b & E1 & E2). rewrite CK in E1. inversion E1; subst b.
    apply (proj1 E2 eq_refl (map (fun r => label_cell (e_period r)) out) CNull); [| |left; reflexivity].
    - cbn [experiment_view v_cells]. apply in_or_app. right. apply in_or_app. right. cbn. auto.
    - apply in_map_iff. exists r. rewrite E. auto. }
  assert (DAYS : forall day, seen_date perf day -> exists r, In r out /\ e_date r = day).
  { intros day Hd. destruct assigned as [|[i a] ?]; [congruence|].
    destruct (EX i day) as (r & Hr & _ & E); auto; [exists a; now left|eauto]. }
  assert (RNG : forall r, In r out -> start - pretest (par d) * week_ns <= e_date r < start + runtime (par d) * week_ns).
  { intros r Hr. pose proof (NUL r Hr) as N. apply HI in Hr as (_ & _ & IW & _ & EP & _).
    rewrite EP in N. rewrite (label_none_iff d lab _ HD L) in N. unfold in_week, week_ns in *. nia. }
  split; [|split; [exact NUL|]].
  - intros day Hd. destruct (DAYS day Hd) as (r & Hr & <-). auto.
  - intros HS3.
    assert (CK := experiment_check_passed _ _ _ _ _ _ _ _ _ "experiment_dates_match_design"
      (check_dates_match (v_dates (experiment_view out)) d start concluded) HV ltac:(do 6 right; left; reflexivity) HS3).
    assert (NE : v_dates (experiment_view out) <> []).
    { cbn. destruct perf as [|r0 perf]; [congruence|].
      destruct (DAYS (o_date r0)) as (r & Hr & _); [exists r0; split; [now left|reflexivity]|].
      destruct out; [destruct Hr|discriminate]. }
    destruct (dates_match_decides _ d start concluded NE) as (b & E1 & E2). rewrite CK in E1. inversion E1; subst b.
    destruct (proj1 E2 eq_refl) as [(x & Hx & Lx) MX]. cbn in Hx.
    assert (SEEN : forall x, In x (map e_date out) -> seen_date perf x).
    { intros y Hy. apply in_map_iff in Hy as (r & <- & Hr). apply HI in Hr. tauto. }
    split.
    + pose proof Hx as Hx'. apply in_map_iff in Hx as (r & <- & Hr). pose proof (RNG r Hr).
      replace (start - pretest (par d) * week_ns) with (e_date r); [auto|]. unfold week_ns, day_ns in *. nia.
    + intros C. destruct (MX C) as (y & Hy & Ly). exists y. split; [auto|]. unfold week_ns, day_ns in *. nia.
Qed.

(** a complete call: two assigned items, one of them without performance, a third item that is
    not assigned; only the item count check is skipped *)
Definition ex_exp_params : params :=
  mkParams 1000 1 "clicks" 1 false f0 f0 f0 None (flit 5 100) (flit 8 10) (Some "s").
Definition ex_exp_design : design := mkDesignRec ex_exp_params 1000 1000.
Definition ex_perf : list obs :=
  [mkObs "a" (- week_ns) [Fin 1]; mkObs "a" 0 [Fin 2]; mkObs "c" 0 [Fin 5]].
Definition ex_assigned : list (string * Z) :=
  [("a", coinflip_call (mkCoinflipRec "s") "a"); ("b", coinflip_call (mkCoinflipRec "s") "b")].
Definition ex_skip : list string := ["number_of_items_matches_design"].

Lemma run_all_pass skip l :
  Forall (fun nr => snd nr = Ok false \/ (exists b, snd nr = Ok b) /\ In (fst nr) skip) l -> run_all skip l = Ok tt.
Proof.
  induction 1 as [|[n r] l H F IH]; [reflexivity|]. cbn [run_all fst snd] in *.
  assert (E : run_check n skip r = Ok tt).
  { destruct H as [-> |[(b & ->) Hn]]; apply c24_wrapped_check_raises_iff_failed_and_not_skipped; auto. }
  rewrite E. exact IH.
Qed.

Example c35_example :
  mk_design (par ex_exp_design) = Ok ex_exp_design /\
  exists out, prepare_experiment isort_by_date (fun _ _ => Ok (Fin 1)) (fun l => l) ex_perf ex_assigned ex_exp_design
    ["clicks"] 0 true ["clicks"] [] ex_skip = Ok out /\
  map (fun r => (e_item r, e_date r, e_week r, e_period r, e_cols r)) out =
    [("a", - week_ns, -1, Some "pretest", [("clicks", Fin 1)]); ("a", 0, 0, Some "test", [("clicks", Fin 2)]);
     ("b", - week_ns, -1, Some "pretest", [("clicks", Fin 0)]); ("b", 0, 0, Some "test", [("clicks", Fin 0)])].
Proof.
  split; [apply mk_design_check; vm_compute; reflexivity|].
  set (out := flat_map (fun ia => [mkE (fst ia) (- week_ns) [("clicks", if String.eqb (fst ia) "a" then Fin 1 else Fin 0)]
                            (-1) (- week_ns) (Some "pretest") (snd ia);
      mkE (fst ia) 0 [("clicks", if String.eqb (fst ia) "a" then Fin 2 else Fin 0)] 0 0 (Some "test") (snd ia)]) ex_assigned).
  exists out. split; [|reflexivity].
  assert (V : validate_experiment_data isort_by_date (fun _ _ => Ok (Fin 1)) (experiment_view out) ex_exp_design
    ["clicks"] 0 true ["clicks"] ex_skip = Ok tt).
  { rewrite experiment_run_all.
    replace (assert_all_exist ex_skip) with (Ok [tt]) by (vm_compute; reflexivity). cbn [bind].
    apply run_all_pass.
    repeat (constructor; [cbn [fst snd]|]); [| | | | | | | | | | | |constructor];
      try (left; vm_compute; reflexivity).
    - right. split; [eexists; reflexivity|now left].
    - left. unfold check_srm. cbn [bind]. f_equal. apply one_above_threshold. }
  unfold prepare_experiment.
  match goal with |- context [raise_if ?b ?e] => change (raise_if b e) with (@Ok unit tt) end. cbn [bind ex_perf].
  fold ex_perf. unfold fill_missing_rows_with_zeros at 1.
  match goal with |- context [raise_if ?b ?e] => change (raise_if b e) with (@Ok unit tt) end. cbn [bind].
  change (label_fun (par ex_exp_design) 0) with (Ok (regular_label 0 1 1)). cbn [bind].
  match goal with |- context [mapM ?f ?l] =>
    replace (mapM f l) with (Ok (map (fun r => (r, combine ["clicks"] (o_vals (w_obs r)))) l)) by reflexivity end.
  cbn [bind].
  match goal with |- context [flat_map ?f ?l] => replace (flat_map f l) with out by reflexivity end.
  rewrite V. reflexivity.
Qed.
Print Assumptions c35_rows_are_assigned_items_times_observed_dates.
Print Assumptions c35_one_row_per_assigned_item_and_date.
Print Assumptions c78_prepared_dates_lie_in_the_experiment.
