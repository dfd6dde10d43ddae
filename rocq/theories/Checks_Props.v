(** Properties C24 - C33: validation checks. *)
From Coq Require Import ZArith Reals List String Bool Lia Lra Permutation Sorting.Sorted.
Require Import Verif.Base Verif.Num Verif.Frame Verif.F64 Verif.ListLib Verif.Design_Model Verif.Design_Proofs
  Verif.Design_Props Verif.Rows_Model Verif.Rows_Spec Verif.Rows_Proofs Verif.Checks_Model Verif.Checks_Spec
  Verif.Checks_Proofs.
Import ListNotations.
Open Scope string_scope.
Open Scope Z_scope.

(** the two validation functions as a plain list of checks *)
Lemma historical_run_all by_date v m skip :
  validate_historical_data by_date v m skip =
  (let! _ := assert_all_exist skip in
   run_all skip
    [("no_nulls", check_no_nulls (v_cells v));
     ("no_duplicate_items_per_date", check_no_duplicates (combine (v_dates v) (v_items v)));
     ("dates_are_daily_or_weekly", check_dates_spacing (v_dates v));
     ("week_ids_are_consecutive_integers", check_week_ids by_date (combine (v_weeks v) (v_dates v)));
     ("all_metrics_are_finite", check_finite (v_col v) [m]);
     ("all_metrics_are_non_negative", check_non_negative (v_col v) [m])]).
Proof.
  unfold validate_historical_data.
  rewrite <- (run_all_last skip "all_metrics_are_non_negative"). reflexivity.
Qed.

Lemma experiment_run_all by_date binom v d metrics start concluded neg skip :
  let required := filter (fun m => negb (existsb (String.eqb m) neg)) metrics in
  validate_experiment_data by_date binom v d metrics start concluded neg skip =
  (let! _ := assert_all_exist skip in
   run_all skip
    [("primary_metric_in_metrics", check_primary metrics (metric (par d)));
     ("no_nulls", check_no_nulls (v_cells v));
     ("no_duplicate_items_per_date", check_no_duplicates (combine (v_dates v) (v_items v)));
     ("dates_are_daily_or_weekly", check_dates_spacing (v_dates v));
     ("week_ids_are_consecutive_integers", check_week_ids by_date (combine (v_weeks v) (v_dates v)));
     ("all_metrics_are_finite", check_finite (v_col v) metrics);
     ("all_metrics_are_non_negative", check_non_negative (v_col v) required);
     ("number_of_items_matches_design", check_n_items (v_items v) d);
     ("experiment_dates_match_design", check_dates_match (v_dates v) d start concluded);
     ("treatment_assignment_is_unique", check_unique_arm (combine (v_items v) (v_arms v)));
     ("coinflip_salt_validation", check_coinflip (combine (v_items v) (v_arms v)) d);
     ("no_sample_ratio_mismatch", check_srm binom srm_threshold (combine (v_items v) (v_arms v)))]).
Proof.
  intros required. unfold validate_experiment_data. fold required.
  assert (E : (if match required with [] => false | _ => true end
     then run_check "all_metrics_are_non_negative" skip (check_non_negative (v_col v) required) else Ok tt) =
     run_check "all_metrics_are_non_negative" skip (check_non_negative (v_col v) required)).
  { destruct required; reflexivity. }
  rewrite E. clear E.
  rewrite <- (run_all_last skip "no_sample_ratio_mismatch"). reflexivity.
Qed.

(* ------------------------------------------------------------------ *)
(** C24. *)
Theorem c24_wrapped_check_raises_iff_failed_and_not_skipped name skip failed :
  (run_check name skip (Ok failed) = Ok tt <-> failed = false \/ In name skip) /\
  (run_check name skip (Ok failed) = Err (ValueError name) <-> failed = true /\ ~ In name skip).
Proof.
  unfold run_check. simpl. destruct failed; simpl.
  - destruct (existsb (String.eqb name) skip) eqn:E.
    + apply (existsb_eqb_In _ String.eqb_eq) in E. split; [tauto|split; [discriminate|tauto]].
    + assert (N : ~ In name skip) by (intros H; apply (existsb_eqb_In _ String.eqb_eq) in H; congruence).
      split; [split; [discriminate|intros [|]; [discriminate|contradiction]]|tauto].
  - split; [tauto|]. split; [discriminate|intros [? _]; discriminate].
Qed.

(** an exception inside a check is not covered by skipping *)
Theorem c24_exception_in_check_is_not_skippable name skip e :
  run_check name skip (Err e) = Err e.
Proof. reflexivity. Qed.

Theorem c24_unknown_skip_name_is_rejected_first by_date binom v d metric metrics start concluded neg skip n :
  In n skip -> ~ In n registered ->
  exists n', In n' skip /\ ~ In n' registered /\
    validate_historical_data by_date v metric skip = Err (unknown_check n') /\
    validate_experiment_data by_date binom v d metrics start concluded neg skip = Err (unknown_check n').
Proof.
  intros H1 H2. destruct (assert_all_exist_iff skip) as [I1 I2].
  unfold validate_historical_data, validate_experiment_data.
  destruct (assert_all_exist skip) as [us|e] eqn:E.
  - exfalso. apply H2. apply I1; auto. eexists; reflexivity.
  - destruct (I2 e eq_refl) as (n' & A & B & ->). exists n'. auto.
Qed.

(** every check runs on the same data whatever is skipped: adding names to the skip list only
    removes failures of these checks *)
Theorem c24_skipping_affects_only_that_check by_date binom v d metrics start concluded neg skip skip' :
  (forall n, In n skip -> In n skip') -> (forall n, In n skip' -> In n registered) ->
  validate_experiment_data by_date binom v d metrics start concluded neg skip = Ok tt ->
  validate_experiment_data by_date binom v d metrics start concluded neg skip' = Ok tt.
Proof.
  intros HI HR.
  assert (M : forall n r, run_check n skip r = Ok tt -> run_check n skip' r = Ok tt).
  { intros n [b|e]; [|discriminate]. rewrite !(proj1 (c24_wrapped_check_raises_iff_failed_and_not_skipped _ _ _)).
    intros [|]; auto. }
  assert (RM : forall cs, run_all skip cs = Ok tt -> run_all skip' cs = Ok tt).
  { induction cs as [|[n r] cs IH]; [auto|]. cbn [run_all]. intros H. apply bind_ok in H as ([] & E & H).
    rewrite (M _ _ E). cbn [bind]. auto. }
  rewrite !experiment_run_all. intros H.
  destruct (proj2 (proj1 (assert_all_exist_iff skip')) HR) as (us & ->). cbn [bind].
  apply bind_ok in H as (us' & _ & H). now apply RM.
Qed.

(* ------------------------------------------------------------------ *)
(** C25. *)
Theorem c25_passes_iff_uniform rows :
  rows <> [] -> (check_no_duplicates rows = Ok false <-> uniform rows) /\ is_ok (check_no_duplicates rows).
Proof.
  intros H. destruct (no_duplicates_decides rows H) as (b & -> & Hb). split; [|eexists; reflexivity].
  rewrite <- Hb. split; congruence.
Qed.

Theorem c25_empty_data_raises : exists e, check_no_duplicates [] = Err e.
Proof. eexists. reflexivity. Qed.

Lemma count_occ_one l (i : string) : NoDup l -> In i l -> count_occ string_dec l i = 1%nat.
Proof.
  intros H1 H2. apply (NoDup_count_occ string_dec) with (x := i) in H1.
  apply (count_occ_In string_dec) in H2. lia.
Qed.

Lemma items_on_In d i rows : In i (items_on d rows) <-> In (d, i) rows.
Proof.
  unfold items_on. rewrite in_map_iff. split.
  - intros ([d' i'] & <- & H). apply filter_In in H as [H E]. apply Z.eqb_eq in E. simpl in *. now subst.
  - intros H. exists (d, i). split; auto. apply filter_In. split; auto. apply Z.eqb_refl.
Qed.

Theorem c25_with_equal_item_sets_passing_means_exactly_once rows :
  rows <> [] ->
  (forall d d' i, In d (map fst rows) -> In d' (map fst rows) -> In (d, i) rows -> In (d', i) rows) ->
  (check_no_duplicates rows = Ok false <-> exactly_once rows).
Proof.
  intros HN HS. rewrite (proj1 (c25_passes_iff_uniform rows HN)). split.
  - intros (n & H) d i Hd Hi. apply count_occ_one; [now apply H|]. apply items_on_In.
    apply in_map_iff in Hi as ([d' i'] & <- & Hr). apply (HS d' d); auto. apply (in_map fst) in Hr. exact Hr.
  - intros H. exists (List.length (items_on (match rows with r :: _ => fst r | [] => 0 end) rows)).
    assert (ND : forall d, In d (map fst rows) -> NoDup (items_on d rows)).
    { intros d Hd. apply (NoDup_count_occ string_dec). intros i.
      destruct (in_dec string_dec i (items_on d rows)) as [Hi|Hi].
      - rewrite H; auto. apply items_on_In in Hi. apply (in_map snd) in Hi. exact Hi.
      - apply (count_occ_not_In string_dec) in Hi. lia. }
    intros d Hd. split; auto. destruct rows as [|[d0 i0] rows]; [congruence|]. cbn [fst].
    assert (Hd0 : In d0 (map fst ((d0, i0) :: rows))) by now left.
    apply Nat.le_antisymm; (apply NoDup_incl_length; [auto|]); intros i Hi;
      rewrite items_on_In in *; [apply (HS d d0)|apply (HS d0 d)]; auto.
Qed.

(** in general the check does not guarantee what its name promises *)
Theorem c25_passing_means_every_item_once_per_date_refuted :
  exists rows, check_no_duplicates rows = Ok false /\ ~ exactly_once rows.
Proof.
  exists [(0, "a"); (day, "b")]. split; [reflexivity|].
  intros H. specialize (H 0 "b"). simpl in H. specialize (H (or_introl eq_refl) (or_intror (or_introl eq_refl))).
  discriminate.
Qed.

Example c25_example :
  uniform [(0, "a"); (day, "a"); (0, "b"); (day, "b")] /\
  check_no_duplicates [(0, "a"); (day, "a"); (0, "b"); (day, "b")] = Ok false /\
  check_no_duplicates [(0, "a"); (day, "a"); (0, "b")] = Ok true /\
  check_no_duplicates [(0, "a"); (0, "a")] = Ok true.
Proof.
  split; [|repeat split]. apply c25_passes_iff_uniform; [discriminate|reflexivity].
Qed.

(* ------------------------------------------------------------------ *)
(** C26. *)
Theorem c26_spacing_check_passes_iff dates :
  check_dates_spacing dates = Ok false <-> evenly_spaced 7 dates \/ evenly_spaced 1 dates.
Proof.
  destruct (spacing_decides dates) as (b & -> & Hb). rewrite <- Hb. split; congruence.
Qed.

Lemma sorted_adjacent_gap (l : list Z) x y : StronglySorted Z.lt l -> adjacent l x y ->
  In x l /\ In y l /\ x < y /\ forall c, In c l -> ~ (x < c < y).
Proof.
  intros S (u & v & ->). induction u as [|c u IH]; simpl in *.
  - inversion S as [|? ? S' F]; subst. inversion S' as [|? ? S'' F']; subst. rewrite Forall_forall in F, F'.
    split; [now left|]. split; [right; now left|]. split; [apply F; now left|].
    intros c [<-|[<-|Hc]]; try lia. apply F' in Hc. lia.
  - inversion S as [|? ? S' F]; subst. destruct (IH S') as (A & B & C & D). repeat split; auto.
    rewrite Forall_forall in F. intros c' [<-|Hc]; auto. apply F in A. lia.
Qed.

Lemma equal_gaps_progression K (l : list Z) : l <> [] -> (forall x y, adjacent l x y -> y = x + K) ->
  exists a n, 0 < n /\ forall x, In x l <-> exists i, 0 <= i < n /\ x = a + i * K.
Proof.
  intros HN H. destruct l as [|a l]; [congruence|]. exists a, (Z.of_nat (List.length (a :: l))). split; [simpl; lia|].
  clear HN. revert a H. induction l as [|b l IH]; intros a H x.
  - simpl. split.
    + intros [<-|[]]. exists 0. lia.
    + intros (i & Hi & ->). left. assert (i = 0) by lia. subst. lia.
  - assert (B : b = a + K) by (apply H; exists [], l; reflexivity). subst b.
    assert (H' : forall x y, adjacent ((a + K) :: l) x y -> y = x + K).
    { intros u v (p & q & E). apply H. exists (a :: p), q. now rewrite E. }
    specialize (IH _ H' x). change (In x (a :: a + K :: l)) with (a = x \/ In x (a + K :: l)). rewrite IH.
    cbn [List.length] in *. split.
    + intros [<-|(i & Hi & ->)]; [exists 0; lia|]. exists (i + 1). split; [lia|ring].
    + intros (i & Hi & ->). destruct (Z.eq_dec i 0) as [->|]; [left; ring|]. right. exists (i - 1). split; [lia|ring].
Qed.

(** for dates with one common time of day the check means: a full daily or weekly progression *)
Theorem c26_midnight_dates_form_a_progression dates t :
  dates <> [] -> (forall x, In x dates -> x mod day_ns = t) ->
  (check_dates_spacing dates = Ok false <-> progression 7 dates \/ progression 1 dates).
Proof.
  intros HN HM. rewrite c26_spacing_check_passes_iff.
  assert (D : 0 < day_ns) by reflexivity.
  assert (G : forall k, 0 < k -> evenly_spaced k dates <-> progression k dates).
  { intros k Hk. split.
    - intros HE. assert (Z0 : zsort_uniq dates <> []).
      { destruct dates as [|d dates]; [congruence|]. intros E. assert (X : In d (zsort_uniq (d :: dates))) by (apply zsort_uniq_In; now left). rewrite E in X. destruct X. }
      destruct (equal_gaps_progression (k * day_ns) (zsort_uniq dates) Z0) as (a & n & Hn & HI).
      + intros x y A. apply sorted_adjacent_gap in A as (Hx & Hy & Hxy & Hno); [|apply zsort_uniq_sorted].
        rewrite zsort_uniq_In in Hx, Hy.
        assert (E := HE x y Hx Hy Hxy (fun c Hc => Hno c (proj2 (zsort_uniq_In _ _) Hc))).
        pose proof (HM x Hx) as Mx. pose proof (HM y Hy) as My.
        assert (Dx := Z.div_mod x day_ns). assert (Dy := Z.div_mod y day_ns).
        rewrite Mx in Dx. rewrite My in Dy. clear - E Dx Dy D. set (p := x / day_ns) in *. set (q := y / day_ns) in *. clearbody p q.
        generalize dependent day_ns. intros D Dx Dy E HD. assert (q - p = k) by nia. nia.
      + exists a, n. split; auto. intros x. rewrite <- HI. symmetry. apply zsort_uniq_In.
    - intros (a & n & Hn & HI) x y Hx Hy Hxy Hno. apply HI in Hx as (i & Hi & ->), Hy as (j & Hj & ->).
      assert (KD : 0 < k * day_ns) by (apply Z.mul_pos_pos; auto).
      replace ((k + 1) * day_ns) with (k * day_ns + day_ns) by ring.
      set (K := k * day_ns) in *. clearbody K. clear - Hxy Hno Hi Hj HI KD D.
      assert (IJ : i < j) by nia.
      destruct (Z.eq_dec j (i + 1)) as [->|]; [nia|]. exfalso. apply (Hno (a + (i + 1) * K)); [|nia].
      apply HI. exists (i + 1). split; [lia|ring]. }
  rewrite !G by lia. tauto.
Qed.

Example c26_example :
  check_dates_spacing [0; 2 * day; 1 * day; 0] = Ok false /\ check_dates_spacing [0; 7 * day; 14 * day] = Ok false /\
  check_dates_spacing [0; 1 * day; 8 * day] = Ok true /\ check_dates_spacing [0; 2 * day; 3 * day] = Ok true.
Proof. repeat split. Qed.

(* ------------------------------------------------------------------ *)
(** C27. *)
Theorem c27_passing_means_ids_consecutive_and_monotone by_date rows :
  orders_by_date by_date -> check_week_ids by_date rows = Ok false -> ids_consecutive rows.
Proof. apply week_ids_sound. Qed.

Theorem c27_passes_iff_when_dates_have_one_week by_date rows :
  orders_by_date by_date -> one_week_per_date rows ->
  (check_week_ids by_date rows = Ok false <-> ids_consecutive rows).
Proof.
  intros HO HF. split; [now apply week_ids_sound|now apply week_ids_complete].
Qed.

(** ids produced by add_week_id_and_week_start pass if no gap between dates exceeds a week *)
Theorem c27_generated_ids_pass by_date start rows :
  orders_by_date by_date ->
  (forall a b, In a (map o_date rows) -> In b (map o_date rows) -> a < b ->
     (forall c, In c (map o_date rows) -> ~ (a < c < b)) -> b - a <= week_ns) ->
  check_week_ids by_date (map (fun w => (w_week w, o_date (w_obs w))) (add_weeks start rows)) = Ok false.
Proof.
  intros HO HG. unfold add_weeks.
  destruct (match start with Some s => Some s | None => zmin_date rows end) as [s|]; [|
    apply (week_ids_complete by_date); auto; [intros a b []|split; [intros a b w []|intros a b []]]].
  rewrite map_map. cbn [w_week w_obs]. apply week_ids_complete; auto.
  - intros a b Ha Hb. apply in_map_iff in Ha as (ra & <- & _), Hb as (rb & <- & _). cbn [fst snd]. now intros ->.
  - assert (MON : forall x y, x <= y -> week_id s x <= week_id s y).
    { intros x y H. unfold week_id. apply Z.div_le_mono; [lia|]. apply Z.div_le_mono; [reflexivity|lia]. }
    split.
    + intros a b w Ha Hb Hw. apply in_map_iff in Ha as (ra & <- & Ha), Hb as (rb & <- & Hb). cbn [fst] in *.
      (* the latest date of week <= w *)
      set (ds := zsort_uniq (map o_date rows)).
      assert (K : forall l x, StronglySorted Z.lt (x :: l) -> (forall u v, adjacent (x :: l) u v -> v - u <= week_ns) ->
        week_id s x <= w -> (exists y, In y (x :: l) /\ w <= week_id s y) -> exists z, In z (x :: l) /\ week_id s z = w).
      { induction l as [|y l IH]; intros x S G Hx (z & Hz & Hwz).
        - destruct Hz as [<-|[]]. exists x. split; [now left|lia].
        - destruct (Z.eq_dec (week_id s x) w) as [|N]; [exists x; split; [now left|auto]|].
          assert (XY : y - x <= week_ns) by (apply G; exists [], l; reflexivity).
          assert (YW : week_id s y <= w).
          { assert (A := proj1 (week_id_iff s x _) eq_refl). assert (B := proj1 (week_id_iff s y _) eq_refl).
            unfold in_week in A, B. assert (P : 0 < week_ns) by reflexivity. generalize dependent week_ns. intros W _ XY A B P. nia. }
          inversion S as [|? ? S' F]; subst.
          destruct (IH y S') as (z' & Hz' & E); auto.
          + intros u v (p & q & E). apply G. exists (x :: p), q. now rewrite E.
          + destruct Hz as [<-|Hz]; [lia|]. eauto.
          + exists z'. split; [now right|auto]. }
      assert (SD : StronglySorted Z.lt ds) by apply zsort_uniq_sorted.
      assert (GD : forall u v, adjacent ds u v -> v - u <= week_ns).
      { intros u v A. apply sorted_adjacent_gap in A as (Hx & Hy & Hxy & Hno); auto. unfold ds in *.
        rewrite zsort_uniq_In in Hx, Hy. apply HG; auto. intros c Hc. apply Hno. now apply zsort_uniq_In. }
      assert (Ia : In (o_date ra) ds) by (apply zsort_uniq_In; now apply in_map).
      assert (Ib : In (o_date rb) ds) by (apply zsort_uniq_In; now apply in_map).
      assert (R : forall z, In z ds -> exists r, In r rows /\ o_date r = z).
      { intros z Hz. unfold ds in Hz. apply zsort_uniq_In, in_map_iff in Hz as (r & ? & ?). eauto. }
      clearbody ds. destruct ds as [|x l]; [destruct Ia|].
      destruct (K l x) as (z & Hz & Ez); auto.
      * transitivity (week_id s (o_date ra)); [|lia]. apply MON. destruct Ia as [->|Ia]; [lia|].
        inversion SD as [|? ? ? F]; subst. rewrite Forall_forall in F. apply F in Ia. lia.
      * exists (o_date rb). split; [auto|lia].
      * destruct (R z Hz) as (r & Hr & <-). eexists. split; [apply in_map_iff; exists r; eauto|exact Ez].
    + intros a b Ha Hb. apply in_map_iff in Ha as (ra & <- & Ha), Hb as (rb & <- & Hb). cbn [fst snd].
      intros Hd. apply MON. lia.
Qed.

Definition isort_by_date (l : list (Z * Z)) := isort (fun a b => snd a <=? snd b) l.
Example c27_sorter_exists : orders_by_date isort_by_date.
Proof.
  intros l. split; [apply isort_perm|].
  assert (S : StronglySorted (le_of (fun a b : Z * Z => snd a <=? snd b)) (isort_by_date l)).
  { apply isort_sorted; intros; [apply Z.leb_le; rewrite Z.leb_le in *; lia|].
    rewrite !Z.leb_le. lia. }
  induction S as [|a l' S IH F]; constructor; auto.
  eapply Forall_impl; [|exact F]. intros b H. now apply Z.leb_le in H.
Qed.
Example c27_example :
  check_week_ids isort_by_date [(0, 0); (1, 7 * day); (0, 0); (2, 14 * day)] = Ok false /\
  check_week_ids isort_by_date [(0, 0); (2, 14 * day)] = Ok true /\
  check_week_ids isort_by_date [(1, 0); (0, 7 * day)] = Ok true.
Proof. repeat split. Qed.

(* ------------------------------------------------------------------ *)
(** C28. *)
Theorem c28_no_nulls_iff cols :
  check_no_nulls cols = Ok false <-> forall col c, In col cols -> In c col -> ~ missing c.
Proof. destruct (no_nulls_decides cols) as (b & -> & <-). split; congruence. Qed.

Theorem c28_finite_iff col metrics :
  (forall m, In m metrics -> col m <> None) ->
  (check_finite col metrics = Ok false <->
   forall m vals x, In m metrics -> col m = Some vals -> In x vals -> exists r, x = Fin r).
Proof.
  intros H. destruct (any_column_decides _ finite_value col metrics fin_good H) as (b & E & Hb).
  unfold check_finite. rewrite E. unfold finite_value in Hb. rewrite <- Hb. split; congruence.
Qed.

Theorem c28_non_negative_iff col metrics :
  (forall m, In m metrics -> col m <> None) ->
  (check_non_negative col metrics = Ok false <->
   forall m vals x, In m metrics -> col m = Some vals -> In x vals -> x <> NInf /\ forall r, x = Fin r -> (0 <= r)%R).
Proof.
  intros H. destruct (any_column_decides _ not_negative col metrics nonneg_good H) as (b & E & Hb).
  unfold check_non_negative. rewrite E. unfold not_negative in Hb. rewrite <- Hb. split; congruence.
Qed.

Theorem c28_together_values_are_finite_and_non_negative col metrics :
  (forall m, In m metrics -> col m <> None) ->
  check_finite col metrics = Ok false -> check_non_negative col metrics = Ok false ->
  forall m vals x, In m metrics -> col m = Some vals -> In x vals -> exists r, x = Fin r /\ (0 <= r)%R.
Proof.
  intros H F N m vals x Hm Hc Hx.
  destruct (proj1 (c28_finite_iff col metrics H) F m vals x Hm Hc Hx) as (r & ->).
  exists r. split; auto. now apply (proj1 (c28_non_negative_iff col metrics H) N m vals (Fin r) Hm Hc Hx).
Qed.

(** a listed column that is not in the data raises KeyError even if the check is skipped *)
Theorem c28_missing_metric_raises col m ms skip :
  col m = None -> exists e, run_check "all_metrics_are_finite" skip (check_finite col (m :: ms)) = Err e.
Proof. intros H. unfold check_finite. simpl. rewrite H. eexists. reflexivity. Qed.

Example c28_example :
  let col := fun m => if String.eqb m "clicks" then Some [Fin 1; Fin 0] else
                      if String.eqb m "cost" then Some [Fin 1; NaN] else None in
  check_finite col ["clicks"] = Ok false /\ check_finite col ["clicks"; "cost"] = Ok true /\
  check_non_negative col ["cost"] = Ok false /\
  check_no_nulls [[CNum (Fin 1); CZ 3]; [CStr "x"; CNull]] = Ok true.
Proof.
  cbv zeta. repeat split; unfold check_non_negative; simpl; fold (nltb (Fin 1) (Fin 0));
    rewrite ?(proj2 (nltb_fin_false 1 0)) by lra; reflexivity.
Qed.

(* ------------------------------------------------------------------ *)
(** C29. *)
Theorem c29_passes_iff_range_is_covered dates d start concluded m M :
  is_min m dates -> is_max M dates ->
  (check_dates_match dates d start concluded = Ok false <->
   m <= start - 7 * day_ns * pretest (par d) /\
   (concluded = true -> start + 7 * day_ns * (runtime (par d) - 1) <= M)).
Proof.
  intros [Hm1 Hm2] [HM1 HM2]. assert (HN : dates <> []) by (intros ->; destruct Hm1).
  destruct (dates_match_decides dates d start concluded HN) as (b & -> & Hb).
  transitivity (dates_cover dates d start concluded); [rewrite <- Hb; split; congruence|].
  unfold dates_cover. split.
  - intros [(x & Hx & Lx) H]. split; [specialize (Hm2 x Hx); lia|]. intros C. destruct (H C) as (y & Hy & Ly).
    specialize (HM2 y Hy). lia.
  - intros [H1 H2]. split; eauto.
Qed.

(** a concluded daily data set may lack its last six days *)
Theorem c29_complete_daily_range_required_refuted :
  exists dates d start, mk_design (par d) = Ok d /\
    check_dates_spacing dates = Ok false /\ In (start + day_ns) dates /\
    check_dates_match dates d start true = Ok false /\
    ~ In (start + 7 * day_ns * runtime (par d) - day_ns) dates /\
    ~ In (start + 7 * day_ns * runtime (par d) - 6 * day_ns) dates.
Proof.
  exists (map (fun i => Z.of_nat i * day_ns) (seq 0 78)), ex_design, (28 * day_ns).
  split; [apply c01_accepts|]. split; [vm_compute; reflexivity|].
  split; [apply (existsb_eqb_In _ Z.eqb_eq); vm_compute; reflexivity|].
  split; [vm_compute; reflexivity|].
  split; intros H; apply (existsb_eqb_In _ Z.eqb_eq) in H; vm_compute in H; discriminate.
Qed.

(* ------------------------------------------------------------------ *)
(** C30. *)
Theorem c30_number_of_items_iff items d n :
  has_card (fun i => In i items) n -> (check_n_items items d = Ok false <-> Z.of_nat n = n_pre d).
Proof.
  intros H. unfold check_n_items.
  rewrite (proj2 (dedup_card String.eqb String.eqb_eq items n) H).
  destruct (Z.eqb_spec (Z.of_nat n) (n_pre d)); simpl; split; congruence.
Qed.

Theorem c30_unique_arm_iff rows :
  check_unique_arm rows = Ok false <-> forall i a b, In (i, a) rows -> In (i, b) rows -> a = b.
Proof.
  destruct (unique_arm_decides rows) as (b & -> & Hb). unfold single_arm in Hb. rewrite <- Hb. split; congruence.
Qed.

Theorem c30_coinflip_iff rows d s :
  salt (par d) = Some s -> s <> "" ->
  (check_coinflip rows d = Ok false <->
   forall i a, In (i, a) rows -> a = coinflip_call (mkCoinflipRec s) i).
Proof.
  intros H1 H2. destruct (coinflip_decides rows d s H1 H2) as (b & -> & Hb).
  unfold arms_from_salt in Hb. rewrite <- Hb. split; congruence.
Qed.

Theorem c30_coinflip_implies_unique_arm rows d :
  check_coinflip rows d = Ok false -> check_unique_arm rows = Ok false.
Proof.
  intros H. unfold check_coinflip in H. destruct (salt (par d)) as [s|] eqn:E; [|discriminate].
  destruct (string_dec s "") as [->|N]; [discriminate|].
  apply c30_unique_arm_iff. intros i a b Ha Hb.
  assert (H' : check_coinflip rows d = Ok false) by (unfold check_coinflip; now rewrite E).
  pose proof (proj1 (c30_coinflip_iff rows d s E N) H') as K. now rewrite (K i a Ha), (K i b Hb).
Qed.

(** a design without salt makes the check raise, whether or not it is skipped *)
Theorem c30_missing_salt_raises rows d skip :
  salt (par d) = None \/ salt (par d) = Some "" ->
  exists e, run_check "coinflip_salt_validation" skip (check_coinflip rows d) = Err e.
Proof. intros [E|E]; unfold check_coinflip; rewrite E; eexists; reflexivity. Qed.

Example c30_example :
  let d := set_salt ex_design (Some "salt") in
  let a := coinflip_call (mkCoinflipRec "salt") "x" in
  check_coinflip [("x", a); ("x", a)] d = Ok false /\ check_coinflip [("x", 1 - a)] d = Ok true /\
  check_unique_arm [("x", 0); ("y", 1); ("x", 0)] = Ok false /\ check_unique_arm [("x", 0); ("x", 1)] = Ok true.
Proof.
  vm_compute. auto.
Qed.

(* ------------------------------------------------------------------ *)
(** C31. *)
Theorem c31_srm_tests_distinct_items binom threshold rows n0 n1 :
  has_card (fun i => In (i, 0) rows) n0 -> has_card (fun i => In (i, 1) rows) n1 ->
  (check_srm binom threshold rows =
   match binom (Z.of_nat n1) (Z.of_nat n0 + Z.of_nat n1) with
   | Ok p => Ok (nltb p threshold)
   | Err e => Err e
   end).
Proof.
  intros H0 H1. apply arm_count_card in H0, H1. unfold check_srm. rewrite H0, H1, (Z.add_comm (Z.of_nat n1)).
  reflexivity.
Qed.

Lemma card_exists (rows : list (string * Z)) a : exists n, has_card (fun i => In (i, a) rows) n.
Proof.
  exists (Z.to_nat (arm_count a rows)). apply arm_count_card. rewrite Z2Nat.id; auto.
  unfold arm_count. destruct (find _ _); lia.
Qed.

Theorem c31_duplicated_rows_do_not_matter binom threshold rows rows' :
  (forall r, In r rows <-> In r rows') ->
  check_srm binom threshold rows = check_srm binom threshold rows'.
Proof.
  intros H. destruct (card_exists rows 0) as (n0 & H0). destruct (card_exists rows 1) as (n1 & H1).
  assert (T : forall a n, has_card (fun i => In (i, a) rows) n -> has_card (fun i => In (i, a) rows') n).
  { intros a n (l & A & B & C). exists l. split; auto. split; auto. intros x. rewrite C. apply H. }
  rewrite (c31_srm_tests_distinct_items _ _ _ _ _ H0 H1).
  now rewrite (c31_srm_tests_distinct_items _ _ _ _ _ (T _ _ H0) (T _ _ H1)).
Qed.

(** rows of other arms are ignored *)
Theorem c31_other_arms_are_ignored binom threshold rows :
  check_srm binom threshold rows =
  check_srm binom threshold (filter (fun r => (snd r =? 0) || (snd r =? 1)) rows).
Proof.
  destruct (card_exists rows 0) as (n0 & H0). destruct (card_exists rows 1) as (n1 & H1).
  assert (T : forall a n, a = 0 \/ a = 1 -> has_card (fun i => In (i, a) rows) n ->
    has_card (fun i => In (i, a) (filter (fun r => (snd r =? 0) || (snd r =? 1)) rows)) n).
  { intros a n Ha (l & A & B & C). exists l. split; auto. split; auto. intros x. rewrite C, filter_In. cbn [snd].
    split; [intros; split; auto|tauto]. destruct Ha as [->| ->]; reflexivity. }
  rewrite (c31_srm_tests_distinct_items _ _ _ _ _ H0 H1).
  now rewrite (c31_srm_tests_distinct_items _ _ _ _ _ (T _ _ (or_introl eq_refl) H0) (T _ _ (or_intror eq_refl) H1)).
Qed.

Example c31_example : has_card (fun i => In (i, 1) [("a", 1); ("a", 1); ("b", 0)]) 1.
Proof. apply arm_count_card. reflexivity. Qed.

(* ------------------------------------------------------------------ *)
(** C32. *)
Definition rectangular (v : vdata) : Prop :=
  v_dates v <> [] /\ List.length (v_items v) = List.length (v_dates v) /\
  List.length (v_weeks v) = List.length (v_dates v).

Lemma combine_nonempty {A B} (l : list A) (m : list B) : l <> [] -> List.length m = List.length l -> combine l m <> [].
Proof. destruct l, m; simpl; congruence. Qed.

Theorem c32_historical_validation_is_the_conjunction by_date v m skip :
  orders_by_date by_date -> rectangular v -> one_week_per_date (combine (v_weeks v) (v_dates v)) ->
  v_col v m <> None -> (forall n, In n skip -> In n registered) ->
  (validate_historical_data by_date v m skip = Ok tt <->
     Forall (fun c => snd c \/ In (fst c) skip) (historical_conditions v m)) /\
  (forall e, validate_historical_data by_date v m skip = Err e ->
     exists pre n P post, historical_conditions v m = (pre ++ (n, P) :: post)%list /\ e = ValueError n /\
       Forall (fun c => snd c \/ In (fst c) skip) pre /\ ~ P /\ ~ In n skip).
Proof.
  intros HO (HN & HL & _) HW HC HR. rewrite historical_run_all.
  destruct (proj2 (proj1 (assert_all_exist_iff skip)) HR) as (us & ->). cbn [bind].
  apply run_all_decides. unfold historical_conditions.
  assert (COL : forall m', In m' [m] -> v_col v m' <> None) by (intros m' [<-|[]]; auto).
  repeat (constructor; [cbn [fst snd]; split; [reflexivity|]|]); [| | | | | |constructor].
  - apply no_nulls_decides.
  - apply no_duplicates_decides. apply combine_nonempty; auto.
  - apply spacing_decides.
  - now apply week_ids_decides.
  - destruct (any_column_decides _ finite_value (v_col v) [m] fin_good COL) as (b & E & Hb).
    exists b. split; auto. rewrite Hb. split; intros H; intros; [eapply H; eauto; now left|].
    destruct H0 as [<-|[]]. eauto.
  - destruct (any_column_decides _ not_negative (v_col v) [m] nonneg_good COL) as (b & E & Hb).
    exists b. split; auto. rewrite Hb. split; intros H; intros; [eapply H; eauto; now left|].
    destruct H0 as [<-|[]]. eauto.
Qed.

Theorem c32_experiment_validation_is_the_conjunction by_date binom v d s metrics start concluded neg skip pvalue n0 n1 :
  orders_by_date by_date -> rectangular v -> one_week_per_date (combine (v_weeks v) (v_dates v)) ->
  (forall m, In m metrics -> v_col v m <> None) ->
  salt (par d) = Some s -> s <> "" ->
  has_card (fun i => In (i, 0) (combine (v_items v) (v_arms v))) n0 ->
  has_card (fun i => In (i, 1) (combine (v_items v) (v_arms v))) n1 ->
  binom (Z.of_nat n1) (Z.of_nat n0 + Z.of_nat n1) = Ok (Fin pvalue) ->
  (forall n, In n skip -> In n registered) ->
  let conds := experiment_conditions (rnd (1 / 1000) <= pvalue)%R v d s metrics start concluded neg in
  (validate_experiment_data by_date binom v d metrics start concluded neg skip = Ok tt <->
     Forall (fun c => snd c \/ In (fst c) skip) conds) /\
  (forall e, validate_experiment_data by_date binom v d metrics start concluded neg skip = Err e ->
     exists pre n P post, conds = (pre ++ (n, P) :: post)%list /\ e = ValueError n /\
       Forall (fun c => snd c \/ In (fst c) skip) pre /\ ~ P /\ ~ In n skip).
Proof.
  intros HO (HN & HL & _) HW HC HS HS' H0 H1 HB HR conds. rewrite experiment_run_all.
  destruct (proj2 (proj1 (assert_all_exist_iff skip)) HR) as (us & ->). cbn [bind].
  apply run_all_decides. unfold conds, experiment_conditions.
  repeat (constructor; [cbn [fst snd]; split; [reflexivity|]|]); [| | | | | | | | | | | |constructor].
  - eexists. split; [reflexivity|]. rewrite negb_false_iff. apply (existsb_eqb_In _ String.eqb_eq).
  - apply no_nulls_decides.
  - apply no_duplicates_decides. apply combine_nonempty; auto.
  - apply spacing_decides.
  - now apply week_ids_decides.
  - apply any_column_decides; auto. apply fin_good.
  - destruct (any_column_decides _ not_negative (v_col v) (filter (fun m => negb (existsb (String.eqb m) neg)) metrics) nonneg_good) as (b & E & Hb).
    { intros m Hm. apply filter_In in Hm as [Hm _]. auto. }
    exists b. split; auto. rewrite Hb.
    assert (F : forall m, In m (filter (fun m => negb (existsb (String.eqb m) neg)) metrics) <-> In m metrics /\ ~ In m neg).
    { intros m. rewrite filter_In, negb_true_iff, <- (existsb_eqb_In _ String.eqb_eq m neg).
      destruct (existsb (String.eqb m) neg); intuition discriminate. }
    split; intros H m vals x.
    + intros A B. apply H. now apply F.
    + intros A. apply F in A as [A B]. now apply H.
  - apply n_items_decides.
  - now apply dates_match_decides.
  - apply unique_arm_decides.
  - now apply coinflip_decides.
  - rewrite (c31_srm_tests_distinct_items _ _ _ _ _ H0 H1), HB. eexists. split; [reflexivity|].
    apply nltb_fin_false.
Qed.

(** skipping a check does not protect from an exception it raises: a design without salt
    makes the validation fail although its check is skipped *)
Theorem c32_skipped_checks_cannot_fail_refuted :
  exists by_date binom v d metrics start concluded neg skip,
    orders_by_date by_date /\ rectangular v /\ (forall n, In n skip -> In n registered) /\
    (forall n, In n registered -> In n skip) /\
    exists e, validate_experiment_data by_date binom v d metrics start concluded neg skip = Err e.
Proof.
  exists isort_by_date, (fun _ _ => Ok (Fin 1)), (mkV [] ["a"] [0] [0] [0] (fun _ => None)), ex_design, [], 0, true, [], registered.
  split; [apply c27_sorter_exists|]. split; [repeat split; discriminate|]. split; auto. split; auto.
  rewrite experiment_run_all. destruct (proj2 (proj1 (assert_all_exist_iff registered)) ltac:(auto)) as (us & ->).
  cbn [bind]. assert (SK : forall n b, In n registered -> run_check n registered (Ok b) = Ok tt).
  { intros n b Hn. apply c24_wrapped_check_raises_iff_failed_and_not_skipped. now right. }
  cbn [run_all v_cells v_items v_dates v_weeks v_arms v_col combine filter].
  unfold check_primary. rewrite SK by (simpl; tauto). cbn [bind].
  unfold check_no_nulls. rewrite SK by (simpl; tauto). cbn [bind].
  change (check_no_duplicates [(0, "a")]) with (Ok false). rewrite SK by (simpl; tauto). cbn [bind].
  change (check_dates_spacing [0]) with (Ok false). rewrite SK by (simpl; tauto). cbn [bind].
  unfold check_week_ids. rewrite SK by (simpl; tauto). cbn [bind].
  unfold check_finite, check_non_negative. cbn [any_column]. rewrite SK by (simpl; tauto). cbn [bind]. rewrite SK by (simpl; tauto). cbn [bind].
  unfold check_n_items. rewrite SK by (simpl; tauto). cbn [bind].
  destruct (dates_match_decides [0] ex_design 0 true ltac:(discriminate)) as (b & -> & _).
  rewrite SK by (simpl; tauto). cbn [bind].
  unfold check_unique_arm. rewrite SK by (simpl; tauto). cbn [bind].
  eexists. reflexivity.
Qed.

(* ------------------------------------------------------------------ *)
(** C33. *)
Definition is_positive (c : cell) : Prop :=
  match c with CZ z => 0 < z | CNum PInf => True | CNum (Fin r) => (0 < r)%R | _ => False end.
Definition numeric (c : cell) : Prop := match c with CStr _ => False | _ => True end.

Lemma positive_cell_spec c : numeric c ->
  exists z, positive_cell c = Ok (CZ z) /\ ((z = 1 /\ is_positive c) \/ (z = 0 /\ ~ is_positive c)).
Proof.
  destruct c as [|z|s|[r| | |]]; simpl; intros H; try contradiction.
  - exists 0. tauto.
  - destruct (Z.ltb_spec 0 z); eexists; split; try reflexivity; [tauto|right; split; [auto|lia]].
  - case Flocq.Core.Raux.Rlt_bool_spec; intros; eexists; split; try reflexivity; [tauto|right; split; [auto|lra]].
  - exists 1. tauto.
  - exists 0. tauto.
  - exists 0. tauto.
Qed.

Lemma Forall2_impl' {A B} (P Q : A -> B -> Prop) l m :
  (forall a b, In a l -> P a b -> Q a b) -> Forall2 P l m -> Forall2 Q l m.
Proof.
  intros H F. induction F; constructor.
  - apply H; [now left|auto].
  - apply IHF. intros. apply H; [now right|auto].
Qed.

(** one new metric *)
Theorem c33_new_column_is_indicator f m new v :
  get_col m f = Some v -> Forall numeric v ->
  exists v', add_at_least_one_metrics f [(m, new)] = Ok (set_col new v' f) /\
    Forall2 (fun c c' => (c' = CZ 1 /\ is_positive c) \/ (c' = CZ 0 /\ ~ is_positive c)) v v'.
Proof.
  intros E F. simpl. rewrite E.
  assert (G : exists v', mapM positive_cell v = Ok v' /\
     Forall2 (fun c c' => (c' = CZ 1 /\ is_positive c) \/ (c' = CZ 0 /\ ~ is_positive c)) v v').
  { clear E. induction F as [|c v Hc F IH]; simpl; [eauto|].
    destruct (positive_cell_spec c Hc) as (z & -> & Hz). destruct IH as (v' & -> & H).
    eexists. split; [reflexivity|]. constructor; auto. destruct Hz as [[-> ?]|[-> ?]]; auto. }
  destruct G as (v' & -> & H). exists v'. auto.
Qed.

(** the whole mapping with fresh, distinct new names: new columns are appended in mapping
    order, every other column is unchanged *)
Theorem c33_fresh_names f metrics :
  (forall m n, In (m, n) metrics -> exists v, get_col m f = Some v /\ Forall numeric v) ->
  (forall m n, In (m, n) metrics -> has_col n f = false) -> NoDup (map snd metrics) ->
  exists vs, add_at_least_one_metrics f metrics = Ok (f ++ combine (map snd metrics) vs)%list /\
    Forall2 (fun mn v' => exists v, get_col (fst mn) f = Some v /\
       Forall2 (fun c c' => (c' = CZ 1 /\ is_positive c) \/ (c' = CZ 0 /\ ~ is_positive c)) v v') metrics vs.
Proof.
  assert (GA : forall c f g v, get_col c f = Some v -> get_col c (f ++ g)%list = Some v).
  { intros c f0 g v. induction f0 as [|[c' v'] f0 IH]; simpl; [discriminate|]. destruct (String.eqb c c'); auto. }
  assert (HA : forall c f g, has_col c (f ++ g)%list = has_col c f || has_col c g).
  { intros c f0 g. unfold has_col, columns. now rewrite map_app, existsb_app. }
  revert f. induction metrics as [|[m n] ms IH]; intros f HG HF ND.
  - exists []. simpl. rewrite app_nil_r. split; auto.
  - destruct (HG m n (or_introl eq_refl)) as (v & Ev & Nv).
    destruct (c33_new_column_is_indicator f m n v Ev Nv) as (v' & E1 & F1).
    inversion ND as [|? ? NI ND']; subst. cbn [snd] in *.
    assert (Fr : has_col n f = false) by (apply (HF m); now left).
    assert (E2 : add_at_least_one_metrics f ((m, n) :: ms) = add_at_least_one_metrics (f ++ [(n, v')])%list ms).
    { simpl in E1 |- *. rewrite Ev in *. destruct (mapM positive_cell v) as [w|e]; [|discriminate].
      cbn [bind] in *. inversion E1 as [E3]. rewrite set_col_fresh in * by auto.
      rewrite set_col_fresh in E3 by auto. now rewrite E3. }
    destruct (IH (f ++ [(n, v')])%list) as (vs & E3 & F3).
    + intros m' n' Hm. destruct (HG m' n' (or_intror Hm)) as (w & Ew & Nw). exists w. split; auto.
    + intros m' n' Hm. rewrite HA, (HF m' n' (or_intror Hm)). unfold has_col. simpl. rewrite orb_false_r.
      apply String.eqb_neq. intros ->. apply NI. apply (in_map snd) in Hm. exact Hm.
    + auto.
    + exists (v' :: vs). rewrite E2, E3. cbn [map combine snd]. rewrite <- app_assoc. split; auto.
      constructor; [exists v; auto|].
      eapply Forall2_impl'; [|exact F3]. intros [m' n'] w Hin (v0 & Ev0 & Fv0). cbn [fst] in *.
      destruct (HG m' n' (or_intror Hin)) as (w' & Ew' & _). exists w'. split; auto.
      rewrite (GA _ _ _ _ Ew') in Ev0. inversion Ev0; subst. auto.
Qed.

(** a missing source column raises KeyError *)
Theorem c33_missing_source_raises f m new metrics :
  get_col m f = None -> add_at_least_one_metrics f ((m, new) :: metrics) = Err (KeyError m).
Proof. intros H. simpl. now rewrite H. Qed.

Example c33_example :
  add_at_least_one_metrics [("clicks", [CZ 3; CZ 0; CZ (-1); CNull])] [("clicks", "any")] =
  Ok [("clicks", [CZ 3; CZ 0; CZ (-1); CNull]); ("any", [CZ 1; CZ 0; CZ 0; CZ 0])].
Proof. reflexivity. Qed.

Example c24_example :
  run_check "no_nulls" ["no_nulls"] (Ok true) = Ok tt /\ run_check "no_nulls" ["x"] (Ok true) = Err (ValueError "no_nulls") /\
  In "no_nulls" registered /\ ~ In "x" registered.
Proof.
  repeat split; [simpl; tauto|]. intros H. apply (existsb_eqb_In _ String.eqb_eq) in H. vm_compute in H. discriminate.
Qed.

Example c29_example : is_min 0 [day; 0; 2 * day] /\ is_max (2 * day) [day; 0; 2 * day].
Proof. split; (split; [simpl; tauto|]); intros x [<-|[<-|[<-|[]]]]; vm_compute; discriminate. Qed.

(** a data set for which every hypothesis of the C32 theorems holds *)
Example c32_example :
  let v := mkV [[CStr "a"; CStr "b"]] ["a"; "b"] [0; 0] [0; 0] [0; 1]
             (fun m => if String.eqb m "clicks" then Some [Fin 1; Fin 2] else None) in
  rectangular v /\ one_week_per_date (combine (v_weeks v) (v_dates v)) /\ v_col v "clicks" <> None /\
  has_card (fun i => In (i, 0) (combine (v_items v) (v_arms v))) 1 /\
  has_card (fun i => In (i, 1) (combine (v_items v) (v_arms v))) 1 /\
  Forall snd (historical_conditions v "clicks").
Proof.
  cbv zeta. split; [split; [discriminate|split; reflexivity]|].
  split; [intros a b [<-|[<-|[]]] [<-|[<-|[]]]; reflexivity|]. split; [discriminate|].
  split; [apply arm_count_card; reflexivity|]. split; [apply arm_count_card; reflexivity|].
  unfold historical_conditions. simpl.
  repeat (apply Forall_cons; [cbn [snd]|]); [| | | | | |constructor].
  - intros col c [<-|[]] [<-|[<-|[]]] [|]; discriminate.
  - apply c25_passes_iff_uniform; [discriminate|reflexivity].
  - left. intros x y [<-|[<-|[]]] [<-|[<-|[]]]; lia.
  - split; [|intros x y [<-|[<-|[]]] [<-|[<-|[]]]; simpl; lia].
    intros x y w [<-|[<-|[]]] [<-|[<-|[]]]; simpl; intros; exists (0, 0); (split; [now left|simpl; lia]).
  - intros vals x H. inversion H. intros [<-|[<-|[]]]; eexists; reflexivity.
  - intros vals x H. inversion H. intros [<-|[<-|[]]]; (split; [discriminate|]); intros r E; inversion E; lra.
Qed.

Print Assumptions c24_wrapped_check_raises_iff_failed_and_not_skipped.
Print Assumptions c24_exception_in_check_is_not_skippable.
Print Assumptions c24_unknown_skip_name_is_rejected_first.
Print Assumptions c24_skipping_affects_only_that_check.
Print Assumptions c25_passes_iff_uniform.
Print Assumptions c25_empty_data_raises.
Print Assumptions c25_with_equal_item_sets_passing_means_exactly_once.
Print Assumptions c25_passing_means_every_item_once_per_date_refuted.
Print Assumptions c26_spacing_check_passes_iff.
Print Assumptions c26_midnight_dates_form_a_progression.
Print Assumptions c27_passing_means_ids_consecutive_and_monotone.
Print Assumptions c27_passes_iff_when_dates_have_one_week.
Print Assumptions c27_generated_ids_pass.
Print Assumptions c28_no_nulls_iff.
Print Assumptions c28_finite_iff.
Print Assumptions c28_non_negative_iff.
Print Assumptions c28_together_values_are_finite_and_non_negative.
Print Assumptions c28_missing_metric_raises.
Print Assumptions c29_passes_iff_range_is_covered.
Print Assumptions c29_complete_daily_range_required_refuted.
Print Assumptions c30_number_of_items_iff.
Print Assumptions c30_unique_arm_iff.
Print Assumptions c30_coinflip_iff.
Print Assumptions c30_coinflip_implies_unique_arm.
Print Assumptions c30_missing_salt_raises.
Print Assumptions c31_srm_tests_distinct_items.
Print Assumptions c31_duplicated_rows_do_not_matter.
Print Assumptions c31_other_arms_are_ignored.
Print Assumptions c32_historical_validation_is_the_conjunction.
Print Assumptions c32_experiment_validation_is_the_conjunction.
Print Assumptions c32_skipped_checks_cannot_fail_refuted.
Print Assumptions c33_new_column_is_indicator.
Print Assumptions c33_fresh_names.
Print Assumptions c33_missing_source_raises.
