(** Properties C34, C35 and C78: the preparation pipelines end to end. *)
From Coq Require Import ZArith Reals List String Bool Lia Lra Permutation Sorting.Sorted.
From Flocq Require Import Core BinarySingleNaN.
Require Import Verif.Base Verif.Num Verif.Frame Verif.F64 Verif.ListLib Verif.Design_Model
  Verif.Design_Proofs Verif.Design_Props
  Verif.Rows_Model Verif.Rows_Spec Verif.Rows_Proofs Verif.Rows_Props
  Verif.Checks_Model Verif.Checks_Spec Verif.Checks_Proofs Verif.Checks_Props
  Verif.Periods_Model Verif.Periods_Proofs Verif.Periods_Props
  Verif.Pipeline_Model Verif.Pipeline_Spec Verif.Pipeline_Proofs.
Import ListNotations.
Open Scope string_scope.
Open Scope Z_scope.

(** the steps of a successful call *)
Lemma prepare_historical_ok by_date frac draw pm column skip rows out :
  prepare_historical by_date frac draw pm column skip rows = Ok out ->
  In pm allowed_primary_metrics /\ out <> [] /\
  validate_historical_data by_date (historical_view column out) column skip = Ok tt /\
  exists grouped, group_data_to_complete_weeks 1 (add_weeks None (fill_rows 1 rows)) = Ok grouped /\
    downsample_items g_item ["week_id"; "week_start"; "item_id"; column] "item_id" frac draw grouped = Ok out.
Proof.
  unfold prepare_historical. intros H.
  apply bind_ok in H as (u1 & H1 & H). apply raise_if_ok in H1. apply negb_false_iff in H1.
  apply (existsb_eqb_In _ String.eqb_eq) in H1.
  apply bind_ok in H as (filled & H2 & H). unfold fill_missing_rows_with_zeros in H2.
  apply bind_ok in H2 as (u2 & _ & H2). inversion H2; subst filled; clear H2.
  apply bind_ok in H as (grouped & H3 & H). apply bind_ok in H as (clean & H4 & H).
  apply bind_ok in H as ([] & H5 & H). inversion H; subst clean; clear H.
  split; [exact H1|]. split; [|split; [exact H5|eauto]].
  intros ->. unfold validate_historical_data in H5.
  apply bind_ok in H5 as (u3 & _ & H5). apply bind_ok in H5 as (u4 & _ & H5).
  apply bind_ok in H5 as (u5 & H6 & _). discriminate H6.
Qed.

Lemma rows_nonempty rows grouped g :
  group_data_to_complete_weeks 1 (add_weeks None (fill_rows 1 rows)) = Ok grouped -> In g grouped ->
  exists first, earliest rows first.
Proof.
  intros HG Hg. destruct rows as [|r rows].
  - inversion HG; subst. destruct Hg.
  - destruct (zmin_date_spec (r :: rows)) as (m & _ & Hm); [discriminate|]. exists m. exact Hm.
Qed.

(** the sampling step, when the grouped data has exactly the raw items *)
Lemma sampling_step draw frac cols ic rows grouped out :
  sampler draw -> Z.of_nat (List.length rows) <= 2 ^ 53 ->
  (forall i, seen_item rows i <-> exists g, In g grouped /\ g_item g = i) ->
  downsample_items g_item cols ic frac draw grouped = Ok out ->
  exists kept, sample_of frac rows kept /\ exists f, out = filter f grouped /\
    forall g, In g grouped -> (f g = true <-> In (g_item g) kept).
Proof.
  intros HD HL ALL HS.
  assert (LEN : forall l, NoDup l -> (forall i, In i l -> seen_item rows i) -> Z.of_nat (List.length l) <= 2 ^ 53).
  { intros l N I. assert (List.length l <= List.length (map o_item rows))%nat.
    { apply NoDup_incl_length; auto. intros i Hi. apply I in Hi as (r & Hr & <-). now apply in_map. }
    rewrite map_length in H. lia. }
  assert (KI : forall i, In i (dedup String.eqb (map g_item grouped)) <-> seen_item rows i).
  { intros i. rewrite (dedup_In _ String.eqb_eq), in_map_iff, ALL. split; intros (g & ? & ?); eauto. }
  assert (KN : NoDup (dedup String.eqb (map g_item grouped))) by apply dedup_NoDup, String.eqb_eq.
  assert (B : Z.of_nat (List.length (dedup String.eqb (map g_item grouped))) <= 2 ^ 53).
  { apply LEN; auto. intros i. apply KI. }
  destruct (downsample_kept g_item cols ic frac draw grouped out HD B HS) as [HFR CASES].
  destruct CASES as [[F1 ->]|(kept & N1 & N2 & (all & A1 & A2 & A3) & ->)].
  - exists (dedup String.eqb (map g_item grouped)). split.
    + split; [exact KN|]. split; [intros i; apply KI|]. split; [intros _ i; apply KI|].
      intros n Hn. assert (n = List.length (dedup String.eqb (map g_item grouped))) as ->.
      { eapply has_card_unique; [exact Hn|]. eexists. split; [exact KN|]. split; [reflexivity|exact KI]. }
      rewrite F1, ZnearestE_full; auto.
    + exists (fun _ => true). split; [symmetry; now apply filter_all|].
      intros g Hg. split; auto. intros _. apply KI, ALL. eauto.
  - exists kept. split.
    + assert (PROP : B2R frac = 1%R -> forall i, seen_item rows i -> In i kept).
      { intros F1. rewrite F1, ZnearestE_full in A3.
        2:{ apply LEN; auto. intros i Hi. apply ALL. now apply A2. }
        intros i Hi. apply ALL, A2 in Hi. revert i Hi.
        assert (I : incl kept all) by (intros x Hx; apply A2; now apply N2).
        apply (NoDup_length_incl N1); auto. lia. }
      split; [exact N1|]. split; [intros i Hi; apply ALL; auto|]. split; [exact PROP|].
      intros n Hn. assert (n = List.length all) as ->; [|exact A3].
      eapply has_card_unique; [exact Hn|]. exists all. split; auto. split; auto. intros i. rewrite A2. symmetry. apply ALL.
    + eexists. split; [reflexivity|]. intros g _. cbv beta. destruct (in_dec _ _ _); intuition discriminate.
Qed.

(** C34.  Daily data. *)
Theorem c34_daily_data_gives_one_row_per_kept_item_and_complete_week by_date frac draw pm column skip rows out :
  sampler draw -> Z.of_nat (List.length rows) <= 2 ^ 53 ->
  evenly_spaced 1 (map o_date rows) ->
  prepare_historical by_date frac draw pm column skip rows = Ok out ->
  exists first kept,
    earliest rows first /\ sample_of frac rows kept /\
    (forall g, In g out <->
       In (g_item g) kept /\ g_extra g = [] /\ g_start g = first + g_week g * week_ns /\
       complete_week rows first (g_week g) /\
       g_vals g = [weekly_total rows first (g_item g) (g_week g)]) /\
    NoDup (map (fun g => (g_item g, g_week g)) out).
Proof.
  intros HD HL HE H. apply prepare_historical_ok in H as (_ & NE & _ & grouped & HG & HS).
  assert (SUB : forall g, In g out -> In g grouped).
  { intros g Hg. unfold downsample_items in HS. apply bind_ok in HS as (? & _ & HS). apply bind_ok in HS as (? & _ & HS).
    destruct (feqb frac f1); [inversion HS; subst; auto|]. apply bind_ok in HS as (s & _ & HS). inversion HS; subst.
    apply filter_In in Hg. tauto. }
  assert (exists g0, In g0 out) as [g0 Hg0]. { destruct out as [|g0 out]; [congruence|]. exists g0. now left. }
  destruct (rows_nonempty rows grouped g0 HG (SUB _ Hg0)) as [first HF].
  destruct (historical_grouped rows first grouped HE HF HG) as [GI ND].
  assert (CW : complete_week rows first (g_week g0)) by (apply GI, SUB, Hg0).
  assert (ALL : forall i, seen_item rows i <-> exists g, In g grouped /\ g_item g = i).
  { intros i. split.
    - intros Hi. exists (mkG (g_week g0) (first + g_week g0 * week_ns) i [] [weekly_total rows first i (g_week g0)]).
      split; [|reflexivity]. apply GI. cbn. auto.
    - intros (g & Hg & <-). apply GI in Hg. tauto. }
  assert (NDK : forall out', incl out' grouped -> NoDup (map gkey out') -> NoDup (map (fun g => (g_item g, g_week g)) out')).
  { intros out' I. clear - GI I. induction out' as [|g l IH]; intros N; [constructor|].
    inversion N as [|? ? N1 N2]; subst. cbn [map]. constructor.
    - intros Hin. apply in_map_iff in Hin as (g' & E & Hg'). apply N1. apply in_map_iff. exists g'. split; auto.
      inversion E as [[E1 E2]]. destruct (proj1 (GI g) (I g (or_introl eq_refl))) as (_ & A1 & A2 & _).
      destruct (proj1 (GI g') (I g' (or_intror Hg'))) as (_ & B1 & B2 & _). unfold gkey. congruence.
    - apply IH; auto. intros x Hx. apply I. now right. }
  destruct (sampling_step draw frac _ _ rows grouped out HD HL ALL HS) as (kept & SO & f & -> & Hf).
  exists first, kept. split; [exact HF|]. split; [exact SO|]. split.
  - intros g. rewrite filter_In. split.
    + intros [Hg E]. apply Hf in E; [|exact Hg]. apply GI in Hg. tauto.
    + intros (K & R). assert (Hg : In g grouped).
      { apply GI. split; [|exact R]. destruct SO as (_ & SO & _). auto. }
      split; [exact Hg|]. now apply Hf.
  - apply NDK; [intros x Hx; apply filter_In in Hx; tauto|].
    clear - ND. induction grouped as [|g l IH]; [constructor|]. inversion ND; subst. cbn [filter].
    destruct (f g); auto. cbn [map]. constructor; auto. intros Hin. apply H1.
    apply in_map_iff in Hin as (g' & E & Hg'). apply filter_In in Hg'. apply in_map_iff. exists g'. tauto.
Qed.

(** weekly data is passed through: one row per raw row (zeros for absent pairs) *)
Theorem c34_weekly_data_is_passed_through by_date frac draw pm column skip rows out :
  sampler draw -> Z.of_nat (List.length rows) <= 2 ^ 53 ->
  evenly_spaced 7 (map o_date rows) ->
  (exists d d', seen_date rows d /\ seen_date rows d' /\ d <> d') ->
  prepare_historical by_date frac draw pm column skip rows = Ok out ->
  exists first kept,
    earliest rows first /\ sample_of frac rows kept /\
    (forall g, In g out <->
       In (g_item g) kept /\ g_extra g = [] /\ g_start g = first + g_week g * week_ns /\
       exists d, seen_date rows d /\ in_week first d (g_week g) /\ value_or_zero 1 rows (g_item g) d (g_vals g)).
Proof.
  intros HD HL HE (d1 & d2 & S1 & S2 & S12) H. apply prepare_historical_ok in H as (_ & NE & _ & grouped & HG & HS).
  assert (exists first, earliest rows first) as [first HF].
  { destruct rows as [|r rows]; [destruct S1 as (? & [] & _)|].
    destruct (zmin_date_spec (r :: rows)) as (m & _ & Hm); [discriminate|]. exists m. exact Hm. }
  assert (NEF : fill_rows 1 rows <> []).
  { apply (proj2 (fill_rows_seen 1 rows)) in S1 as (r & H & _). intros E. rewrite E in H. destruct H. }
  assert (AW : add_weeks None (fill_rows 1 rows) = add_weeks (Some first) (fill_rows 1 rows)).
  { destruct (c17_default_start_is_earliest_date _ NEF) as (m & (r & Hr & Em) & Hm & E & _). rewrite E.
    apply (earliest_fill rows first 1) in HF as [(r' & Hr' & Er') HF].
    assert (m = first) as ->; [|reflexivity]. pose proof (Hm _ Hr'). pose proof (HF _ Hr). lia. }
  rewrite AW in HG. set (W := add_weeks (Some first) (fill_rows 1 rows)) in *.
  assert (WD : map (fun r => o_date (w_obs r)) W = map o_date (fill_rows 1 rows)).
  { unfold W. cbn [add_weeks]. rewrite map_map. reflexivity. }
  assert (HEW : evenly_spaced 7 (map (fun r => o_date (w_obs r)) W)).
  { eapply evenly_spaced_ext; [|exact HE]. intros x. rewrite WD.
    rewrite !in_map_iff. pose proof (proj2 (fill_rows_seen 1 rows) x) as E. unfold seen_date in E.
    split.
    - intros (r & H1 & H2). destruct (proj2 E) as (r' & ? & ?); eauto.
    - intros (r & H1 & H2). destruct (proj1 E) as (r' & ? & ?); eauto. }
  assert (TWO : exists a b, In a W /\ In b W /\ o_date (w_obs a) <> o_date (w_obs b)).
  { apply (proj2 (fill_rows_seen 1 rows)) in S1 as (r1 & R1 & E1), S2 as (r2 & R2 & E2).
    eexists; eexists. split; [apply in_map; exact R1|]. split; [apply in_map; exact R2|]. cbn. congruence. }
  pose proof (c18_weekly_data_is_returned_unchanged 1 W grouped HEW TWO HG) as F2.
  assert (GI : forall g, In g grouped <->
    seen_item rows (g_item g) /\ g_extra g = [] /\ g_start g = first + g_week g * week_ns /\
       exists d, seen_date rows d /\ in_week first d (g_week g) /\ value_or_zero 1 rows (g_item g) d (g_vals g)).
  { assert (X : forall g, In g grouped <-> exists r, In r W /\ same_group g r /\ g_vals g = o_vals (w_obs r)).
    { clear - F2. induction F2 as [|r g W grouped [A B] F IH]; intros x; [split; [intros []|intros (? & [] & _)]|].
      split.
      - intros [<-|Hx]; [exists r; split; [now left|auto]|]. apply IH in Hx as (r' & ? & ?). exists r'. split; [now right|auto].
      - intros (r' & [<-|Hr] & E1 & E2).
        + left. destruct A as (A1 & A2 & A3 & A4), E1 as (E3 & E4 & E5 & E6). destruct g, x. cbn in *. congruence.
        + right. apply IH. eauto. }
    intros g. rewrite X. unfold W. cbn [add_weeks]. split.
    - intros (r & Hr & (A1 & A2 & A3 & A4) & A5). apply in_map_iff in Hr as (o & <- & Ho). cbn in *.
      apply fill_rows_In in Ho as (O1 & O2 & O3). rewrite A3 in *. split; [exact O1|]. split; [auto|].
      rewrite week_start_eq, A1 in A2. split; [auto|]. exists (o_date o). split; [exact O2|].
      split; [now apply week_id_iff|]. now rewrite A5.
    - intros (O1 & E1 & E2 & d & O2 & O3 & O4).
      eexists. split; [apply in_map; apply fill_rows_In; exact (conj O1 (conj O2 O4) : seen_item rows (o_item (mkObs (g_item g) d (g_vals g))) /\ _)|].
      unfold same_group. cbn. apply week_id_iff in O3. rewrite week_start_eq, O3. auto. }
  assert (ALL : forall i, seen_item rows i <-> exists g, In g grouped /\ g_item g = i).
  { intros i. split.
    - intros Hi. destruct (fill_rows_pair 1 rows i d1 Hi S1) as (o & O1 & O2 & O3).
      exists (mkG (week_id first d1) (week_start first d1) i [] (o_vals o)).
      split; [|reflexivity]. apply GI. cbn. split; auto. split; auto. split; [apply week_start_eq|].
      exists d1. split; auto. split; [now apply week_id_iff|]. apply fill_rows_In in O1. rewrite O2, O3 in O1. tauto.
    - intros (g & Hg & <-). apply GI in Hg. tauto. }
  destruct (sampling_step draw frac _ _ rows grouped out HD HL ALL HS) as (kept & SO & f & -> & Hf).
  exists first, kept. split; [exact HF|]. split; [exact SO|].
  intros g. rewrite filter_In. split.
  - intros [Hg E]. apply Hf in E; [|exact Hg]. apply GI in Hg. tauto.
  - intros (K & R). assert (Hg : In g grouped).
    { apply GI. split; [|exact R]. destruct SO as (_ & SO & _). auto. }
    split; [exact Hg|]. now apply Hf.
Qed.

Definition ex_days : list obs := map (fun i => mkObs "a" (i * day) [Fin 1]) [0; 1; 2; 3; 4; 5; 6].

Lemma one_row_is_valid (x : R) : (0 <= x)%R ->
  validate_historical_data isort_by_date (historical_view "clicks" [mkG 0 0 "a" [] [Fin x]]) "clicks" [] = Ok tt.
Proof.
  intros Hx. set (v := historical_view "clicks" [mkG 0 0 "a" [] [Fin x]]).
  assert (RC : rectangular v) by (split; [discriminate|split; reflexivity]).
  assert (OW : one_week_per_date (combine (v_weeks v) (v_dates v))).
  { intros a b [<-|[]] [<-|[]] _. reflexivity. }
  assert (CO : v_col v "clicks" <> None) by discriminate.
  apply (proj2 (proj1 (c32_historical_validation_is_the_conjunction isort_by_date v "clicks" []
    c27_sorter_exists RC OW CO (fun n (H : In n []) => match H with end)))).
  unfold historical_conditions.
  repeat (constructor; [left; cbn [snd]|]); [| | | | | |constructor].
  - intros col c Hcol Hc M. cbn in Hcol.
    repeat (destruct Hcol as [<-|Hcol]; [destruct Hc as [<-|[]]; destruct M; discriminate|]). destruct Hcol.
  - exists 1%nat. intros d [<-|[]]. split; [constructor; [intros []|constructor]|reflexivity].
  - left. intros a b [<-|[]] [<-|[]] Hab. lia.
  - split; intros a b; [intros w [<-|[]] [<-|[]] Hw|intros [<-|[]] [<-|[]] Hw].
    + cbn in Hw. exists (0, 0). split; [now left|]. cbn. lia.
    + reflexivity.
  - intros vals y E Hy. cbn in E. inversion E; subst. destruct Hy as [<-|[]]. eexists. reflexivity.
  - intros vals y E Hy. cbn in E. inversion E; subst. destruct Hy as [<-|[]].
    split; [discriminate|]. intros r Er. inversion Er; subst. exact Hx.
Qed.

Definition first_items (pop : list string) (n : Z) : list string := firstn (Z.to_nat n) pop.

Lemma NoDup_app_l {A} (l m : list A) : NoDup (l ++ m)%list -> NoDup l.
Proof.
  induction l as [|a l IH]; cbn; intros H; [constructor|]. inversion H; subst. constructor; auto.
  intros Hin. apply H2. apply in_or_app. now left.
Qed.
Lemma first_items_sampler : sampler first_items.
Proof.
  intros pop n ND Hn. unfold first_items. split; [|split].
  - rewrite <- (firstn_skipn (Z.to_nat n) pop) in ND. now apply NoDup_app_l in ND.
  - intros x Hx. rewrite <- (firstn_skipn (Z.to_nat n) pop). apply in_or_app. now left.
  - rewrite firstn_length. lia.
Qed.

Lemma ex_call_historical rows x : (0 <= x)%R ->
  group_data_to_complete_weeks 1 (add_weeks None (fill_rows 1 rows)) = Ok [mkG 0 0 "a" [] [Fin x]] ->
  prepare_historical isort_by_date f1 first_items "clicks" "clicks" [] rows = Ok [mkG 0 0 "a" [] [Fin x]].
Proof.
  intros Hx HG. unfold prepare_historical.
  change (raise_if (negb (existsb (String.eqb "clicks") allowed_primary_metrics)) (ValueError "primary_metric"))
    with (@Ok unit tt).
  change (fill_missing_rows_with_zeros ["item_id"; "date"; "clicks"] "item_id" "date" 1 rows) with (Ok (fill_rows 1 rows)).
  cbn [bind]. rewrite HG. cbn [bind].
  replace (downsample_items g_item ["week_id"; "week_start"; "item_id"; "clicks"] "item_id" f1 first_items
    [mkG 0 0 "a" [] [Fin x]]) with (Ok [mkG 0 0 "a" [] [Fin x]]).
  - cbn [bind]. rewrite one_row_is_valid by exact Hx. reflexivity.
  - unfold downsample_items.
    replace (fleb f1 f0 || fgtb f1 f1)%bool with false by (vm_compute; reflexivity).
    replace (feqb f1 f1) with true by (vm_compute; reflexivity). reflexivity.
Qed.

Example c34_example :
  evenly_spaced 1 (map o_date ex_days) /\
  exists x, prepare_historical isort_by_date f1 first_items "clicks" "clicks" [] ex_days =
    Ok [mkG 0 0 "a" [] [Fin x]] /\ x = 7%R.
Proof.
  split; [apply frequency_iff; vm_compute; reflexivity|].
  eexists. split; [apply ex_call_historical; [|reflexivity]; lra|lra].
Qed.

(** a raw row delivered twice is counted twice: the duplicate check runs after the weekly
    totals have been taken, so it never sees the duplicates of daily data *)
Theorem c34_duplicated_daily_rows_are_rejected_refuted :
  exists by_date draw frac rows out r,
    orders_by_date by_date /\ sampler draw /\ evenly_spaced 1 (map o_date rows) /\
    prepare_historical by_date frac draw "clicks" "clicks" [] rows = Ok out /\
    (exists l1 l2 l3, rows = (l1 ++ r :: l2 ++ r :: l3)%list) /\
    prepare_historical by_date frac draw "clicks" "clicks" [] ex_days <> Ok out.
Proof.
  destruct c34_example as (_ & x & E & X).
  set (rows := mkObs "a" 0 [Fin 1] :: ex_days).
  assert (exists y, prepare_historical isort_by_date f1 first_items "clicks" "clicks" [] rows =
    Ok [mkG 0 0 "a" [] [Fin y]] /\ y = 8%R) as (y & EY & Y).
  { eexists. split; [apply ex_call_historical; [|reflexivity]; lra|lra]. }
  exists isort_by_date, first_items, f1, rows, [mkG 0 0 "a" [] [Fin y]], (mkObs "a" 0 [Fin 1]).
  split; [apply c27_sorter_exists|]. split; [apply first_items_sampler|].
  split; [apply frequency_iff; vm_compute; reflexivity|]. split; [exact EY|]. split.
  - exists [], [], (tl ex_days). reflexivity.
  - rewrite E. intros C. inversion C as [C']. subst x y. lra.
Qed.
Print Assumptions c34_daily_data_gives_one_row_per_kept_item_and_complete_week.
Print Assumptions c34_weekly_data_is_passed_through.
Print Assumptions c34_duplicated_daily_rows_are_rejected_refuted.
