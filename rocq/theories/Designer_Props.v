(** C87: the designer's journey, from the raw rows to the exported experiment. *)
From Coq Require Import ZArith Reals Lra Lia List String Bool Permutation Sorting.Sorted.
From Flocq Require Import Core BinarySingleNaN.
Require Import Verif.Base Verif.Num Verif.NumOrd Verif.F64 Verif.Frame Verif.ListLib Verif.Design_Model Verif.Design_Spec Verif.Design_Proofs Verif.Design_Yaml_Proofs Verif.Design_Props
  Verif.Enumerate_Model Verif.Enumerate_Spec Verif.Enumerate_Props
  Verif.Checks_Model Verif.Checks_Spec Verif.Checks_Proofs Verif.Checks_Props
  Verif.Trimmed_Model Verif.Trimmed_Spec Verif.Moments Verif.Trimmed_Proofs Verif.Trimmed_Real Verif.Trimmed_Props
  Verif.Cuped_Model Verif.Cuped_Props Verif.Stats_Model Verif.Stats_Num Verif.Stats_Props Verif.Tests_Proofs
  Verif.Tests_Props Verif.Periods_Model Verif.Periods_Proofs Verif.Periods_Props Verif.Rows_Model Verif.Rows_Spec Verif.Pivot_Spec Verif.Assign_Spec Verif.Assign_Model Verif.Assign_Proofs Verif.Assign_Props
  Verif.Pivot_Model Verif.Pivot_Proofs Verif.Pivot_Props Verif.Analysis_Spec Verif.Analysis_Model Verif.Analysis_Props Verif.Analysis_Props2 Verif.Effect_Props
  Verif.Simulation_Model Verif.Sim_Names_Props Verif.Sim_Boot_Props Verif.Sim_State_Props Verif.Sim_Stats_Props Verif.Sim_Estimate_Props Verif.Sim_Effect_Props
  Verif.Pipeline_Model Verif.Designer_Spec Verif.Designer_Model Verif.Designer_Proofs.
Import ListNotations.
Open Scope string_scope.
Open Scope list_scope.
Open Scope Z_scope.

Theorem c87_prepared_history_is_a_panel by_date frac draw pm column raw rows :
  orders_by_date by_date ->
  prepare_historical by_date frac draw pm column [] raw = Ok rows ->
  weekly_starts rows /\ amounts rows /\
  exists items lo hi, panel rows items lo hi.
Proof.
  intros HO H. destruct (prepared_panel _ _ _ _ _ _ _ HO H) as (A & B & items & lo & hi & P & _). split; [exact A|]. split; [exact B|]. eauto.
Qed.

(** *** The frame of the notebook *)
Lemma flat_map_nth {A B} (F : A -> list B) (l : list A) (K : nat -> list B) :
  (forall i x, nth_error l i = Some x -> K i = F x) -> flat_map K (seq 0 (List.length l)) = flat_map F l.
Proof.
  revert K. induction l as [|a l IH]; intros K H; [reflexivity|]. cbn [List.length seq flat_map].
  rewrite (H 0%nat a eq_refl). f_equal. rewrite <- seq_shift, flat_map_concat_map, map_map, <- flat_map_concat_map.
  apply IH. intros i x Hi. now apply (H (S i)).
Qed.

Lemma historical_columns column rows : ~ In column taken_names ->
  let f := historical_frame column rows in
  col_or_nil "week_id" f = map (fun g => CZ (g_week g)) rows /\
  col_or_nil "item_id" f = map (fun g => CStr (g_item g)) rows /\
  col_or_nil column f = map (fun g => CNum (nth 0 (g_vals g) NaN)) rows /\
  has_col "week_id" f = true /\ has_col "item_id" f = true /\ has_col column f = true /\ has_col "time_period" f = false.
Proof.
  intros N f. assert (D : forall c, In c taken_names -> String.eqb c column = false).
  { intros c Hc. apply String.eqb_neq. intros ->. contradiction. }
  assert (D' : forall c, In c taken_names -> String.eqb column c = false) by (intros c Hc; rewrite String.eqb_sym; auto).
  unfold f, historical_frame, col_or_nil, has_col, columns. cbn [get_col map fst existsb].
  rewrite !String.eqb_refl, !orb_true_r.
  assert (E1 : (column =? "week_id")%string = false) by (apply D'; simpl; tauto).
  assert (E2 : (column =? "week_start")%string = false) by (apply D'; simpl; tauto).
  assert (E3 : (column =? "item_id")%string = false) by (apply D'; simpl; tauto).
  assert (E4 : ("time_period" =? column)%string = false) by (apply D; simpl; tauto).
  rewrite E1, E2, E3, E4. repeat split; reflexivity.
Qed.

Lemma historical_frame_rows column rows : ~ In column taken_names ->
  frame_rows (historical_frame column rows) [column] "item_id" "week_id" None =
  map (fun g => mkP (g_item g, []) (Some (g_week g)) [nth 0 (g_vals g) NaN]) rows.
Proof.
  intros N. destruct (historical_columns column rows N) as (C1 & C2 & C3 & _). cbv zeta in *.
  unfold frame_rows. rewrite C1, map_length.
  rewrite (flat_map_nth (fun g => [mkP (g_item g, @nil Z) (Some (g_week g)) [nth 0 (g_vals g) NaN]]) rows).
  - clear. induction rows as [|g l IH]; [reflexivity|]. cbn [flat_map map app]. now rewrite IH.
  - intros i g Hi. unfold frame_row. cbn [map]. rewrite C1, C2, C3.
    assert (X : forall B (F : grow -> B) (dflt : B), nth i (map F rows) dflt = F g).
    { intros B F dflt. apply nth_error_nth. now apply map_nth_error. }
    rewrite !X. reflexivity.
Qed.

Section Journey.
Context (column : string) (rows : list grow) (items : list string) (lo hi : Z).
Context (HN : ~ In column taken_names) (HP : panel rows items lo hi) (HA : amounts rows).
Let f := historical_frame column rows.
Let frows := frame_rows f [column] "item_id" "week_id" None.

Lemma panel_nonempty : rows <> [].
Proof.
  destruct HP as (NE & _ & L & _ & C). destruct items as [|i l]; [congruence|]. specialize (C i lo (or_introl eq_refl) ltac:(lia)).
  intros E. rewrite E in C. discriminate C.
Qed.
Lemma panel_has i w : In i items -> lo <= w <= hi -> exists g, In g rows /\ g_item g = i /\ g_week g = w.
Proof.
  intros Hi Hw. destruct HP as (_ & _ & _ & _ & C). specialize (C i w Hi Hw).
  destruct (filter _ rows) as [|g l] eqn:E; [discriminate|]. exists g.
  assert (I : In g (g :: l)) by now left. rewrite <- E in I. apply filter_In in I as (I & B). apply andb_true_iff in B as [B1 B2].
  split; [exact I|]. split; [now apply String.eqb_eq|now apply Z.eqb_eq].
Qed.
Lemma panel_item : exists i, In i items.
Proof. destruct HP as (NE & _). destruct items as [|i l]; [congruence|]. exists i. now left. Qed.
Lemma panel_items i : In i items <-> In i (map g_item rows).
Proof.
  split.
  - intros Hi. destruct HP as (_ & _ & L & _). destruct (panel_has i lo Hi ltac:(lia)) as (g & Hg & <- & _). now apply in_map.
  - intros Hi. apply in_map_iff in Hi as (g & <- & Hg). destruct HP as (_ & _ & _ & I & _). now apply I.
Qed.
Lemma panel_count : Z.of_nat (List.length (dedup String.eqb (map g_item rows))) = Z.of_nat (List.length items).
Proof.
  f_equal. apply Nat.le_antisymm; apply NoDup_incl_length.
  - apply dedup_NoDup, String.eqb_eq.
  - intros i Hi. apply panel_items. exact (proj1 (dedup_In _ String.eqb_eq _ _) Hi).
  - destruct HP as (_ & ND & _). exact ND.
  - intros i Hi. apply (dedup_In _ String.eqb_eq). apply panel_items. exact Hi.
Qed.
Lemma panel_balanced : balanced frows items lo hi.
Proof.
  unfold frows, f. rewrite (historical_frame_rows column rows HN). split.
  - intros r Hr. apply in_map_iff in Hr as (g & <- & Hg). exists (g_item g). split; [|reflexivity].
    destruct HP as (_ & _ & _ & I & _). now apply I.
  - intros i w Hi Hw. destruct (panel_has i w Hi Hw) as (g & Hg & <- & <-).
    eexists. split; [apply in_map; exact Hg|]. split; reflexivity.
Qed.
Lemma panel_calm : calm frows.
Proof.
  unfold frows, f. rewrite (historical_frame_rows column rows HN). intros r Hr. apply in_map_iff in Hr as (g & <- & Hg).
  cbn [p_vals]. constructor; [|constructor]. destruct (HA g Hg) as (x & -> & _). split; discriminate.
Qed.
Lemma panel_length : List.length frows = List.length rows.
Proof. unfold frows, f. rewrite (historical_frame_rows column rows HN). apply map_length. Qed.
Lemma panel_max_week : max_week f "week_id" = Some hi.
Proof.
  unfold max_week. unfold f. destruct (historical_columns column rows HN) as (-> & _).
  assert (E : flat_map (fun c => match z_of_cell c with Some z => [z] | None => [] end) (map (fun g => CZ (g_week g)) rows) = map g_week rows).
  { clear. induction rows as [|g l IH]; [reflexivity|]. cbn [map flat_map z_of_cell app]. now rewrite IH. }
  rewrite E. destruct (list_max_spec (map g_week rows)) as (m & -> & I & M).
  { assert (NE := panel_nonempty). intros E0. apply map_eq_nil in E0. contradiction. }
  f_equal. destruct HP as (NE & _ & L & B & _). apply in_map_iff in I as (g & <- & Hg). destruct (B g Hg) as (_ & U).
  destruct panel_item as (i & Hi).
  destruct (panel_has i hi Hi ltac:(lia)) as (h & Hh & _ & Eh).
  assert (g_week h <= g_week g) by (apply M; now apply in_map). lia.
Qed.
Lemma panel_weeks w : In w (dedup Z.eqb (map g_week rows)) <-> lo <= w <= hi.
Proof.
  rewrite (dedup_In _ Z.eqb_eq). split.
  - intros Hw. apply in_map_iff in Hw as (g & <- & Hg). destruct HP as (_ & _ & _ & B & _). now apply B.
  - intros Hw. destruct panel_item as (i & Hi). destruct (panel_has i w Hi Hw) as (g & Hg & _ & <-). now apply in_map.
Qed.

Lemma panel_size : Z.of_nat (List.length rows) = Z.of_nat (List.length items) * (hi - lo + 1).
Proof.
  destruct HP as (NE & ND & LH & B & ONE).
  assert (DEC : forall x y : string * Z, {x = y} + {x <> y}) by (decide equality; [apply Z.eq_dec|apply string_dec]).
  assert (CNT : forall i w, count_occ DEC (map (fun g => (g_item g, g_week g)) rows) (i, w) =
     List.length (filter (fun g => String.eqb (g_item g) i && (g_week g =? w))%bool rows)).
  { intros i w. clear. induction rows as [|a l IH]; [reflexivity|]. cbn [map count_occ filter].
    destruct (DEC (g_item a, g_week a) (i, w)) as [E|N].
    - inversion E. rewrite String.eqb_refl, Z.eqb_refl. cbn [andb List.length]. subst. now rewrite IH.
    - destruct (String.eqb_spec (g_item a) i) as [E1|]; [|exact IH]. destruct (Z.eqb_spec (g_week a) w) as [E2|]; [|exact IH].
      exfalso. apply N. congruence. }
  assert (NK : NoDup (map (fun g => (g_item g, g_week g)) rows)).
  { apply (NoDup_count_occ DEC). intros [i w]. destruct (in_dec DEC (i, w) (map (fun g => (g_item g, g_week g)) rows)) as [I|N].
    - apply in_map_iff in I as (g & E & Hg). inversion E. subst. destruct (B g Hg) as (B1 & B2). rewrite CNT, (ONE _ _ B1 B2). lia.
    - apply (count_occ_not_In DEC) in N. rewrite N. lia. }
  assert (NW : NoDup (map (fun k => lo + Z.of_nat k) (seq 0 (Z.to_nat (hi - lo + 1))))).
  { apply FinFun.Injective_map_NoDup; [intros a b E; lia|apply seq_NoDup]. }
  assert (PE : Permutation (map (fun g => (g_item g, g_week g)) rows) (list_prod items (map (fun k => lo + Z.of_nat k) (seq 0 (Z.to_nat (hi - lo + 1)))))).
  { apply NoDup_Permutation; [exact NK| |].
    - clear - ND NW. induction ND as [|i l N D IH]; [constructor|]. cbn [list_prod]. apply NoDup_app'; auto.
      + apply FinFun.Injective_map_NoDup; auto. intros a b E. congruence.
      + intros [i' d'] H1 H2. apply in_map_iff in H1 as (d & E & _). apply in_prod_iff in H2 as [H2 _]. assert (i' = i) by congruence. subst. contradiction.
    - intros [i w]. rewrite in_prod_iff, in_map_iff. split.
      + intros (g & E & Hg). inversion E. subst. destruct (B g Hg) as (B1 & B2). split; [exact B1|].
        apply in_map_iff. exists (Z.to_nat (g_week g - lo)). split; [lia|]. apply in_seq. lia.
      + intros (Hi & Hw). apply in_map_iff in Hw as (k & <- & Hk). apply in_seq in Hk.
        destruct (panel_has i (lo + Z.of_nat k) Hi ltac:(lia)) as (g & Hg & <- & <-). exists g. auto. }
  apply Permutation_length in PE. rewrite map_length in PE. rewrite PE, prod_length, map_length, seq_length. lia.
Qed.

Context (c : candidates) (ds : list design) (minimum : Z) (HDS : designs_to_simulate column c rows = Ok (ds, minimum)).
Context (HB : Z.of_nat (List.length rows) < 2 ^ 53).

Lemma simulated_designs :
  generate_all_valid_designs (Z.of_nat (List.length items)) (c_crossover c) (c_traditional c) (c_runtimes c) (c_pretests c) (c_tops c) (c_bottoms c) (c_posts c)
    column (Some (c_washout c)) = Ok ds /\
  calculate_minimum_start_week_id (c_runtimes c) (c_pretests c) (dedup Z.eqb (map g_week rows)) = Ok minimum.
Proof.
  revert HDS. unfold designs_to_simulate. rewrite panel_count. intros H.
  apply bind_ok in H as (u & _ & H). apply bind_ok in H as (ds' & H1 & H). apply bind_ok in H as (m & H2 & H).
  assert (ds' = ds /\ m = minimum) as [-> ->] by (split; congruence). auto.
Qed.
Lemma simulated_design d : In d ds ->
  mk_design (par d) = Ok d /\ metric (par d) = column /\ n_before (par d) = Z.of_nat (List.length items) /\ n_before (par d) < 2 ^ 53 /\
  alpha (par d) = flit 5 100 /\ power (par d) = flit 8 10 /\ salt (par d) = None /\
  lo + pretest (par d) <= minimum <= hi - runtime (par d) + 1.
Proof.
  intros Hd. destruct simulated_designs as (HG & HM).
  apply (c08_design_returned_iff _ _ _ _ _ _ _ _ _ _ _ d HG) in Hd as (D & R1 & R2 & _ & _ & _ & E1 & E2 & E3 & E4 & E5 & _).
  apply c11_minimum_start_week_is_least_with_room in HM as (_ & _ & _ & RM & _).
  destruct (RM _ _ R1 R2) as ((a & Ha & La) & (b & Hb & Lb)). apply panel_weeks in Ha, Hb.
  assert (n_before (par d) < 2 ^ 53).
  { rewrite E1. assert (List.length items <= List.length (map g_item rows))%nat.
    { apply NoDup_incl_length; [destruct HP as (_ & ND & _); exact ND|]. intros i. apply panel_items. }
    rewrite map_length in H. lia. }
  repeat (split; [assumption|]). split; [|assumption || lia]. lia.
Qed.

Context (T : tdist) (argsort : list num -> list nat) (G : Type) (shuffle_of sample_of : G -> nat -> list nat * G).
Context (HS : sorts argsort) (HSH : forall g, shuffles (fun k => fst (shuffle_of g k))).

Lemma new_analysis_ok d : exists s, new_analysis d f minimum = Ok s /\ sm_design s = d /\ sm_item s = "item_id" /\ sm_week s = "week_id" /\
  sm_treatment s = "treatment" /\ sm_aa s = None /\ sm_ab s = None /\ sm_threshold s = (rnd (1 / 10000))%R.
Proof.
  unfold new_analysis, mk_sim. unfold f. destruct (historical_columns column rows HN) as (_ & _ & _ & -> & _).
  eexists. split; [reflexivity|]. cbn. auto 10.
Qed.

Lemma estimates_succeed ds' g : (forall d, In d ds' -> In d ds) ->
  exists g' l, estimate_designs T argsort shuffle_of sample_of f minimum ds' g = (g', Ok l).
Proof.
  revert g. induction ds' as [|d ds' IH]; intros g I; cbn [estimate_designs]; [eauto|].
  destruct (new_analysis_ok d) as (s & ES & ED & EI & EW & _). rewrite ES.
  destruct (simulated_design d (I d (or_introl eq_refl))) as (D & EM & EN & NB & _ & _ & _ & RG).
  destruct (c73_balanced_data_can_be_estimated T argsort G shuffle_of sample_of (par d) d f "item_id" "week_id" minimum "time_period" "treatment" (rnd (1 / 10000)) s items lo hi g
    HS HSH D NB ES) as (s' & [f' g'] & E & EF & _).
  - rewrite EM. exact panel_calm.
  - unfold readable. rewrite EM. unfold f. destruct (historical_columns column rows HN) as (_ & _ & _ & A1 & A2 & A3 & A4). auto.
  - rewrite EM. exact panel_balanced.
  - destruct HP as (_ & ND & _). exact ND.
  - now rewrite EN.
  - exact panel_max_week.
  - exact RG.
  - cbn [fst] in EF. subst f'. rewrite E. destruct (IH g') as (g'' & l & ->); [intros d' Hd; apply I; now right|]. eauto.
Qed.

Lemma estimates_come_from ds' g g' l : estimate_designs T argsort shuffle_of sample_of f minimum ds' g = (g', Ok l) ->
  Forall2 (fun d s => exists s0 g0 x, new_analysis d f minimum = Ok s0 /\
    estimate_minimum_detectable_effect T argsort shuffle_of sample_of s0 (f, g0) = ((s, x), Ok tt)) ds' l.
Proof.
  revert g l. induction ds' as [|d ds' IH]; intros g l H; cbn [estimate_designs] in H.
  - assert (l = []) as -> by congruence. constructor.
  - destruct (new_analysis d f minimum) as [s0|] eqn:ES; [|discriminate].
    destruct (estimate_minimum_detectable_effect T argsort shuffle_of sample_of s0 (f, g)) as [[s' [f1 g1]] [[]|]] eqn:EE; [|discriminate].
    destruct (estimate_designs _ _ _ _ f minimum ds' g1) as [g2 [l'|]] eqn:ER; [|discriminate].
    assert (g2 = g' /\ l = s' :: l') as [-> ->] by (split; congruence).
    constructor; [exists s0, g, (f1, g1); auto|]. eapply IH. exact ER.
Qed.

Lemma estimate_keeps s0 g0 s x : estimate_minimum_detectable_effect T argsort shuffle_of sample_of s0 (f, g0) = ((s, x), Ok tt) ->
  sm_design s = sm_design s0 /\ sm_aa s = sm_aa s0 /\ sm_ab s = sm_ab s0 /\ sm_threshold s = sm_threshold s0 /\ sm_mde s <> None.
Proof.
  unfold estimate_minimum_detectable_effect. destruct (estimate_average_primary_metric_stats _ _ _ _ _) as [x' [[[a sd] n]|]]; [|discriminate].
  destruct (minimum_detectable_effect_of _ _ _ _ _) as [[mde rel]|]; [|discriminate]. intros H.
  assert (E := f_equal (fun r => fst (fst r)) H). cbn [fst] in E. rewrite <- E. cbn. repeat split; discriminate.
Qed.
End Journey.

(** every design that is proposed for data that passed all the checks gets an estimate *)
Theorem c87_every_design_can_be_estimated :
  forall T argsort G (shuffle_of sample_of : G -> nat -> list nat * G) by_date frac draw pm column raw rows c ds minimum g,
    sorts argsort -> (forall g, shuffles (fun k => fst (shuffle_of g k))) -> orders_by_date by_date ->
    ~ In column taken_names ->
    prepare_historical by_date frac draw pm column [] raw = Ok rows -> Z.of_nat (List.length rows) < 2 ^ 53 ->
    designs_to_simulate column c rows = Ok (ds, minimum) ->
    exists g' l, estimate_all T argsort shuffle_of sample_of by_date frac draw pm column [] raw c g = (g', Ok (rows, l)) /\
      map sm_design l = ds /\ forall s, In s l -> sm_mde s <> None /\ simulated_false_positive_rate s = Ok None.
Proof.
  intros T argsort G shuffle_of sample_of by_date frac draw pm column raw rows c ds minimum g HS HSH HO HN HPR HB HDS.
  destruct (prepared_panel _ _ _ _ _ _ _ HO HPR) as (_ & HA & items & lo & hi & HP & _).
  unfold estimate_all. rewrite HPR. cbn [bind]. rewrite HDS. cbn [bind].
  destruct (estimates_succeed column rows items lo hi HN HP HA c ds minimum HDS HB T argsort G shuffle_of sample_of HS HSH ds g (fun d H => H)) as (g' & l & E).
  rewrite E. exists g', l. split; [reflexivity|].
  apply estimates_come_from in E.
  assert (X : Forall2 (fun d s => sm_design s = d /\ sm_mde s <> None /\ sm_aa s = None) ds l).
  { clear - E HN. induction E as [|d s ds l (s0 & g0 & x & E1 & E2) _ IH]; constructor; auto.
    destruct (new_analysis_ok column rows HN minimum d) as (s0' & E1' & D & _ & _ & _ & A & _).
    assert (s0' = s0) as -> by congruence.
    destruct (estimate_keeps column rows T argsort G shuffle_of sample_of s0 g0 s x E2) as (K1 & K2 & _ & _ & K4). split; [congruence|]. split; congruence. }
  split.
  - clear - X. induction X as [|d s ds l (<- & _) _ IH]; [reflexivity|]. cbn [map]. now rewrite IH.
  - clear - X. induction X as [|d s ds l (_ & M & A) _ IH]; intros s' []; [subst s'|now apply IH].
    split; [exact M|]. unfold simulated_false_positive_rate. now rewrite A.
Qed.

(** and every crossover design among them can be validated, with any number of simulations and
    whatever the generator has been used for in between *)
Theorem c87_crossover_designs_can_be_validated :
  forall T argsort G (shuffle_of sample_of : G -> nat -> list nat * G) arms_of choice_of by_date frac draw pm column raw rows c g g' l s,
    sorts argsort -> (forall g, shuffles (fun k => fst (shuffle_of g k))) -> samples_positions sample_of -> draws_arms arms_of ->
    (forall g l, l <> [] -> In (fst (choice_of g l)) l) -> orders_by_date by_date ->
    ~ In column taken_names -> plain_name column ->
    estimate_all T argsort shuffle_of sample_of by_date frac draw pm column [] raw c g = (g', Ok (rows, l)) ->
    Z.of_nat (List.length rows) < 2 ^ 53 ->
    In s l -> crossover (par (sm_design s)) = true ->
    forall force n g0, exists s2 g2 aa ab,
      validate_selected T argsort shuffle_of sample_of arms_of choice_of force n s (historical_frame column rows) g0 = ((s2, g2), Ok tt) /\
      sm_design s2 = sm_design s /\ sm_mde s2 = sm_mde s /\ sm_threshold s2 = (rnd (1 / 10000))%R /\
      sm_aa s2 = Some aa /\ sm_ab s2 = Some ab /\ List.length aa = n /\ List.length ab = n.
Proof.
  intros T argsort G shuffle_of sample_of arms_of choice_of by_date frac draw pm column raw rows c g g' l s HS HSH HSP HAR HCH HO HN PN H HB Hs CR force n g0.
  unfold estimate_all in H.
  destruct (let! rows0 := prepare_historical by_date frac draw pm column [] raw in _) as [[rows' [ds minimum]]|] eqn:EP; [|discriminate].
  apply bind_ok in EP as (rows0 & HPR & EP). apply bind_ok in EP as (dm & HDS & EP).
  assert (rows0 = rows' /\ dm = (ds, minimum)) as [-> ->] by (split; congruence). clear EP.
  destruct (estimate_designs _ _ _ _ _ minimum ds g) as [g1 [l1|]] eqn:EE; [|discriminate].
  assert (rows' = rows /\ l1 = l) as [-> ->] by (split; congruence). clear H.
  destruct (prepared_panel _ _ _ _ _ _ _ HO HPR) as (_ & HA & items & lo & hi & HP & _).
  apply estimates_come_from in EE.
  assert (X : exists d s0 ga x, In d ds /\ new_analysis d (historical_frame column rows) minimum = Ok s0 /\
     estimate_minimum_detectable_effect T argsort shuffle_of sample_of s0 (historical_frame column rows, ga) = ((s, x), Ok tt)).
  { clear - EE Hs. induction EE as [|d s' ds l (s0 & ga & x & E1 & E2) _ IH]; [destruct Hs|].
    destruct Hs as [->|Hs]; [exists d, s0, ga, x; repeat split; auto; now left|].
    destruct (IH Hs) as (d' & s0' & ga' & x' & I & R). exists d', s0', ga', x'. split; [now right|exact R]. }
  destruct X as (d & s0 & ga & x & Hd & E1 & E2).
  destruct (new_analysis_ok column rows HN minimum d) as (s0' & E1' & D & IT & WK & TR & A1 & A2 & THR).
  assert (s0' = s0) as -> by congruence.
  destruct (estimate_keeps column rows T argsort G shuffle_of sample_of s0 ga s x E2) as (K1 & K2 & K3 & K5 & K4).
  destruct (simulated_design column rows items lo hi HP c ds minimum HDS HB d Hd) as (MD & EM & EN & NB & AL & PW & _).
  destruct (c85_estimated_crossover_designs_can_be_validated T argsort G shuffle_of sample_of arms_of choice_of s0 (historical_frame column rows) ga s x
    HS HSH HSP HAR HCH) as (_ & HV); rewrite ?D, ?IT, ?WK, ?TR, ?EM, ?AL, ?PW; auto.
  - congruence.
  - apply default_power.
  - apply default_level.
  - exact (panel_calm column rows HN HA).
  - rewrite (panel_length column rows HN). lia.
  - apply (c69_name_round_trip "item_id" "test"); [simpl; auto|reflexivity].
  - assert (P : plain_name "treatment") by (apply (c69_name_round_trip "treatment" "test"); [simpl; auto|reflexivity]). apply P.
  - intros E. apply HN. rewrite E. simpl. tauto.
  - discriminate.
  - destruct (HV n g0) as (s2 & x2 & E). unfold validate_selected, simulated_false_positive_rate. rewrite K2, A1, andb_false_r, E.
    exists s2, (snd x2). unfold run_validate_design in E. destruct (sm_mde s) eqn:EMD; [|discriminate].
    destruct (smap _ (seq 0 n) _) as [x' [results|]] eqn:ES; [|discriminate].
    assert (ES2 := f_equal (fun r => fst (fst r)) E). cbn [fst] in ES2. rewrite <- ES2. cbn.
    exists (map fst results), (map snd results). rewrite !map_length.
    assert (LEN : List.length results = n).
    { clear - ES. rewrite <- (seq_length n 0). revert ES. generalize (historical_frame column rows, g0). generalize results x'. induction (seq 0 n) as [|i k IH]; intros rs z y ES; cbn [smap] in ES.
      - unfold sret in ES. assert (rs = []) as -> by congruence. reflexivity.
      - unfold sbind in ES. destruct (simulate_once _ _ _ _ _ _ _ _ y) as [y1 [r|]]; [|discriminate].
        destruct (smap _ k y1) as [y2 [rs'|]] eqn:EK; [|discriminate]. unfold sret in ES. assert (rs = r :: rs') as -> by congruence.
        cbn [List.length]. f_equal. eapply IH. exact EK. }
    split; [reflexivity|]. split; [reflexivity|]. split; [reflexivity|]. split; [congruence|]. auto.
Qed.

(** *** Which raw data is accepted *)
(** daily data of at least seven days and weekly data of at least two weeks, without a missing date; items may
    miss some of the dates *)
Theorem c87_complete_history_is_accepted by_date draw pm column raw n :
  orders_by_date by_date -> In pm allowed_primary_metrics -> raw_amounts raw -> raw <> [] ->
  (regular_dates 1 n (map o_date raw) /\ 7 <= n -> exists rows,
     prepare_historical by_date f1 draw pm column [] raw = Ok rows /\
     exists items, (forall i, In i items <-> In i (map o_item raw)) /\ panel rows items 0 (n / 7 - 1)) /\
  (regular_dates 7 n (map o_date raw) /\ 2 <= n /\ NoDup (map (fun r => (o_item r, o_date r)) raw) -> exists rows,
     prepare_historical by_date f1 draw pm column [] raw = Ok rows /\
     exists items, (forall i, In i items <-> In i (map o_item raw)) /\ panel rows items 0 (n - 1)).
Proof.
  intros HO PM RA NE. split.
  - intros (RD & N7). destruct (daily_accepted by_date draw pm column raw n HO PM RA NE RD N7) as (rows & E & P).
    exists rows. split; [exact E|]. eexists. split; [|exact P]. intros i. apply (dedup_In _ String.eqb_eq).
  - intros (RD & N2 & ND). destruct (weekly_accepted by_date draw pm column raw n HO PM RA NE RD N2 ND) as (rows & E & P).
    exists rows. split; [exact E|]. eexists. split; [|exact P]. intros i. apply (dedup_In _ String.eqb_eq).
Qed.

(** any panel of amounts passes all the checks *)
Theorem c87_every_panel_passes by_date column rows items lo hi :
  orders_by_date by_date -> weekly_starts rows -> amounts rows -> panel rows items lo hi ->
  validate_historical_data by_date (historical_view column rows) column [] = Ok tt.
Proof. apply panel_passes. Qed.

(** *** The designs on offer *)
Theorem c87_which_designs_are_offered column c rows :
  let n := Z.of_nat (List.length (dedup String.eqb (map g_item rows))) in
  let weeks := dedup Z.eqb (map g_week rows) in
  (is_ok (designs_to_simulate column c rows) <->
    (c_crossover c = true -> 1 <= c_washout c) /\
    Forall design_ok (wanted n column (c_crossover c) (c_traditional c) (c_washout c) (c_runtimes c) (c_pretests c) (c_tops c) (c_bottoms c) (c_posts c)) /\
    is_ok (calculate_minimum_start_week_id (c_runtimes c) (c_pretests c) weeks)) /\
  forall ds m, designs_to_simulate column c rows = Ok (ds, m) ->
    room_for (c_runtimes c) (c_pretests c) weeks m /\
    forall d, In d ds -> design_ok (par d) /\ metric (par d) = column /\ n_before (par d) = n /\
      In (runtime (par d)) (c_runtimes c) /\ In (pretest (par d)) (c_pretests c) /\
      (crossover (par d) = true -> exists w, washout (par d) = Some w /\ 1 <= w).
Proof.
  cbv zeta. split.
  - unfold designs_to_simulate. split.
    + intros ((ds & m) & H). apply bind_ok in H as (u & H1 & H). apply raise_if_ok in H1.
      apply bind_ok in H as (ds' & H2 & H). apply bind_ok in H as (m' & H3 & _).
      split; [|split].
      * intros C. rewrite C in H1. cbn [andb] in H1. apply Z.ltb_ge in H1. exact H1.
      * apply c10_returns_iff_every_constructed_design_is_valid. eexists. exact H2.
      * eexists. exact H3.
    + intros (H1 & H2 & (m & H3)). apply c10_returns_iff_every_constructed_design_is_valid in H2 as (ds & H2).
      assert (E : andb (c_crossover c) (c_washout c <? 1) = false).
      { destruct (c_crossover c); [|reflexivity]. apply Z.ltb_ge. now apply H1. }
      rewrite E. cbn [raise_if bind]. rewrite H2. cbn [bind]. rewrite H3. cbn [bind]. eexists. reflexivity.
  - intros ds m H. unfold designs_to_simulate in H. apply bind_ok in H as (u & H1 & H). apply raise_if_ok in H1.
    apply bind_ok in H as (ds' & H2 & H). apply bind_ok in H as (m' & H3 & H).
    assert (ds' = ds /\ m' = m) as [-> ->] by (split; congruence).
    split; [apply c11_minimum_start_week_is_least_with_room in H3; tauto|].
    intros d Hd. apply (c08_design_returned_iff _ _ _ _ _ _ _ _ _ _ _ d H2) in Hd as (D & R1 & R2 & _ & _ & _ & E1 & E2 & _ & _ & _ & _ & W).
    split; [now apply mk_design_iff in D|]. repeat (split; [assumption|]).
    intros C. destruct W as [(C' & _)|(_ & X & W & _)]; [congruence|]. exists (c_washout c). split; [exact W|].
    rewrite X in H1. cbn [andb] in H1. apply Z.ltb_ge in H1. exact H1.
Qed.

(** *** Validation in the notebook *)
Theorem c87_validated_designs_are_left_alone T argsort G (shuffle_of sample_of : G -> nat -> list nat * G) arms_of choice_of n s f g s2 g2 :
  sm_aa s = None -> (0 < n)%nat ->
  validate_selected T argsort shuffle_of sample_of arms_of choice_of false n s f g = ((s2, g2), Ok tt) ->
  forall n' g', validate_selected T argsort shuffle_of sample_of arms_of choice_of false n' s2 f g' = ((s2, g'), Ok tt).
Proof.
  intros A N H n' g'. unfold validate_selected, simulated_false_positive_rate in H. rewrite A in H. cbn [negb andb] in H.
  unfold run_validate_design in H. destruct (sm_mde s); [|discriminate].
  destruct (smap _ (seq 0 n) (f, g)) as [x' [results|]] eqn:ES; [|discriminate].
  assert (E := f_equal (fun r => fst (fst r)) H). cbn [fst] in E.
  assert (NE : results <> []).
  { destruct n as [|n]; [lia|]. cbn [seq smap] in ES. unfold sbind in ES. destruct (simulate_once _ _ _ _ _ _ _ _ _) as [y1 [r|]]; [|discriminate].
    destruct (smap _ _ y1) as [y2 [rs'|]]; [|discriminate]. unfold sret in ES. congruence. }
  unfold validate_selected, simulated_false_positive_rate. rewrite <- E. cbn [sm_aa]. unfold is_statistically_significant, column_of.
  destruct results as [|r0 rs]; [congruence|]. reflexivity.
Qed.

(** a validation without simulations leaves results that nothing can be read from: neither another
    validation, even a forced one, nor an export is possible any more *)
Theorem c87_no_simulations_can_be_repaired_refuted :
  exists s : sim, sm_mde s <> None /\ forall T argsort G (shuffle_of sample_of : G -> nat -> list nat * G) arms_of choice_of f g,
    exists s2, validate_selected T argsort shuffle_of sample_of arms_of choice_of false 0 s f g = ((s2, g), Ok tt) /\
      (forall force n g', validate_selected T argsort shuffle_of sample_of arms_of choice_of force n s2 f g' = ((s2, g'), Err (KeyError "column"))) /\
      (forall kstest binomtest ttest_1samp binom column sh bytes rows,
         snd (export_design kstest binomtest ttest_1samp binom column sh bytes s2 rows) = Err (KeyError "column")).
Proof.
  exists (mkSim (panel_design true) "item_id" "week_id" 1 (Some 1) "time_period" "treatment" (rnd (1 / 10000)) (Some (Fin 1)) (Some (Fin 1)) (Some (Fin 1)) (Some (Fin 1)) None None).
  split; [discriminate|]. intros T argsort G shuffle_of sample_of arms_of choice_of f g. eexists. split; [reflexivity|]. split; reflexivity.
Qed.

(** *** The export *)
Lemma export_inv kstest binomtest ttest_1samp binom column sh bytes s rows d' out :
  export_design kstest binomtest ttest_1samp binom column sh bytes s rows = (d', Ok out) ->
  (exists rate, simulated_false_positive_rate s = Ok (Some rate)) /\ all_robustness_checks_pass kstest binomtest ttest_1samp s = Ok (Some true) /\
  perform_treatment_assignment binom (columns (historical_frame column rows)) "item_id" (Some "week_id")
    "treatment_assignment" sh bytes (sm_design s) (assignment_rows rows) = (d', Ok out).
Proof.
  unfold export_design. intros H. destruct (let! rate := simulated_false_positive_rate s in _) as [[]|] eqn:E; [|discriminate].
  apply bind_ok in E as (rate & E1 & E). apply bind_ok in E as (u & E2 & E). apply raise_if_ok in E2.
  apply bind_ok in E as (pass & E3 & E). apply raise_if_ok in E. apply negb_false_iff in E.
  destruct rate as [rate|]; [|discriminate]. split; [eauto|]. split; [|exact H]. rewrite E3. destruct pass as [[]|]; try discriminate. reflexivity.
Qed.

Lemma passes_every_check kstest binomtest ttest_1samp s : all_robustness_checks_pass kstest binomtest ttest_1samp s = Ok (Some true) ->
  null_p_value_robustness_check_pass kstest s = Ok (Some true) /\ power_robustness_check_pass binomtest s = Ok (Some true) /\
  false_positive_rate_robustness_check_pass binomtest s = Ok (Some true) /\
  aa_point_estimate_robustness_check_pass ttest_1samp s = Ok (Some true) /\ ab_point_estimate_robustness_check_pass ttest_1samp s = Ok (Some true).
Proof.
  unfold all_robustness_checks_pass. intros H. apply bind_ok in H as (checks & E & H).
  apply mapM_ok in E. repeat match goal with X : Forall2 _ _ _ |- _ => inversion X; subst; clear X end.
  repeat match goal with o : option bool |- _ => destruct o as [[]|] end; cbn in H; try discriminate; auto 10.
Qed.

(** what is exported: the checks have passed, the design can be read back from its file, every item
    of the experiment has one arm, and an experiment with these items passes the checks on arms and items *)
Theorem c87_the_export_is_consistent :
  forall T argsort G (shuffle_of sample_of : G -> nat -> list nat * G) by_date frac draw pm column raw rows c g g' l s
      kstest binomtest ttest_1samp binom sh bytes d' out,
    orders_by_date by_date -> ~ In column taken_names ->
    estimate_all T argsort shuffle_of sample_of by_date frac draw pm column [] raw c g = (g', Ok (rows, l)) ->
    Z.of_nat (List.length rows) < 2 ^ 53 -> In (sm_design s) (map sm_design l) -> shuffles sh ->
    export_design kstest binomtest ttest_1samp binom column sh bytes s rows = (d', Ok out) ->
    (exists rate, simulated_false_positive_rate s = Ok (Some rate)) /\
    (null_p_value_robustness_check_pass kstest s = Ok (Some true) /\ power_robustness_check_pass binomtest s = Ok (Some true) /\
     false_positive_rate_robustness_check_pass binomtest s = Ok (Some true) /\
     aa_point_estimate_robustness_check_pass ttest_1samp s = Ok (Some true) /\ ab_point_estimate_robustness_check_pass ttest_1samp s = Ok (Some true)) /\
    (forall st path, load_from_yaml (write_to_yaml st path d') path = Ok d') /\
    NoDup (map fst out) /\ Z.of_nat (List.length out) = n_pre (sm_design s) /\ (forall i a, In (i, a) out -> In i (map g_item rows)) /\
    forall exp, (forall x, In x exp <-> In x out) ->
      check_n_items (map fst exp) d' = Ok false /\ check_unique_arm exp = Ok false /\ check_coinflip exp d' = Ok false /\
      run_check "no_sample_ratio_mismatch" [] (check_srm binom srm_threshold exp) = Ok tt.
Proof.
  intros T argsort G shuffle_of sample_of by_date frac draw pm column raw rows c g g' l s kstest binomtest ttest_1samp binom sh bytes d' out HO HN H HB Hs SH HX.
  unfold estimate_all in H.
  destruct (let! rows0 := prepare_historical by_date frac draw pm column [] raw in _) as [[rows' [ds minimum]]|] eqn:EP; [|discriminate].
  apply bind_ok in EP as (rows0 & HPR & EP). apply bind_ok in EP as (dm & HDS & EP).
  assert (rows0 = rows' /\ dm = (ds, minimum)) as [-> ->] by (split; congruence). clear EP.
  destruct (estimate_designs _ _ _ _ _ minimum ds g) as [g1 [l1|]] eqn:EE; [|discriminate].
  assert (rows' = rows /\ l1 = l) as [-> ->] by (split; congruence). clear H.
  destruct (prepared_panel _ _ _ _ _ _ _ HO HPR) as (_ & HA & items & lo & hi & HP & _).
  apply estimates_come_from in EE.
  assert (Hd : In (sm_design s) ds).
  { assert (X : map sm_design l = ds); [|now rewrite <- X]. clear - EE HN.
    induction EE as [|d s' ds l (s0 & ga & x & E1 & E2) _ IH]; [reflexivity|]. cbn [map]. f_equal; [|exact IH].
    destruct (new_analysis_ok column rows HN minimum d) as (s0' & E1' & D & _). assert (s0' = s0) as -> by congruence.
    destruct (estimate_keeps column rows T argsort G shuffle_of sample_of s0 ga s' x E2) as (K1 & _). congruence. }
  set (d := sm_design s) in *.
  destruct (simulated_design column rows items lo hi HP c ds minimum HDS HB d Hd) as (MD & EM & EN & NB & _).
  apply export_inv in HX as (RT & AP & PA). split; [exact RT|]. split; [now apply passes_every_check|].
  fold d in PA.
  assert (HI : map h_item (assignment_rows rows) = map g_item rows) by (unfold assignment_rows; now rewrite map_map).
  assert (HWK : map h_week (assignment_rows rows) = map g_week rows) by (unfold assignment_rows; now rewrite map_map).
  assert (A1 : forall r, In r (assignment_rows rows) -> h_metric r <> PInf /\ h_metric r <> NInf).
  { intros r Hr. apply in_map_iff in Hr as (q & <- & Hq). cbn [h_metric]. destruct (HA q Hq) as (x & -> & _). split; discriminate. }
  assert (A2 : Z.of_nat (List.length (assignment_rows rows)) < 2 ^ 53) by (unfold assignment_rows; now rewrite map_length).
  assert (A3 : has_card (fun i => In i (map h_item (assignment_rows rows))) (List.length items)).
  { exists items. split; [destruct HP as (_ & ND & _); exact ND|]. split; [reflexivity|]. intros i. rewrite HI. apply (panel_items rows items lo hi HP). }
  assert (A5 : untrimmed (par d) \/ forall i, In i (map h_item (assignment_rows rows)) -> exists r, In r (assignment_rows rows) /\ h_item r = i /\
      recent (pretest (par d)) (map h_week (assignment_rows rows)) (h_week r)).
  { destruct (proj1 (mk_design_iff (par d) d) MD) as [OK _]. destruct (Z.eq_dec (pretest (par d)) 0) as [E0|N0].
    - left. destruct (ok_pretrim _ OK E0). now split.
    - right. intros i Hi. rewrite HI in Hi. apply (panel_items rows items lo hi HP) in Hi.
      destruct HP as (P1 & P2 & P3 & P4 & P5). destruct (panel_has rows items lo hi (conj P1 (conj P2 (conj P3 (conj P4 P5)))) i hi Hi ltac:(lia)) as (q & Hq & Ei & Ew).
      exists (mkH (g_item q) (g_week q) (nth 0 (g_vals q) NaN)). split; [apply in_map_iff; eauto|]. split; [exact Ei|].
      exists hi. rewrite HWK. split; [rewrite <- Ew; now apply in_map|]. split.
      + intros x Hx. apply in_map_iff in Hx as (q' & <- & Hq'). now apply P4.
      + cbn [h_week]. pose proof (ok_pretest _ OK). lia. }
  destruct (assigned_count binom _ _ _ _ sh bytes (par d) d (assignment_rows rows) d' out (List.length items) MD SH A1 A2 A3 (eq_sym EN) A5 PA) as (ND & LEN).
  assert (V : forall exp st path, (forall x, In x exp <-> In x out) -> _) by
    (intros exp st path; apply (c38_assigned_items_pass_validation binom _ _ _ _ sh bytes (par d) d (assignment_rows rows) d' out (List.length items) exp st path MD SH A1 A2 A3 (eq_sym EN) A5 PA)).
  split; [intros st path; apply (V out st path); tauto|]. split; [exact ND|]. split; [exact LEN|]. split.
  - intros i a Hia. destruct (pta_ok _ _ _ _ _ _ _ _ _ _ _ PA) as (sl & _ & _ & ED & _ & its & EI & EO).
    assert (Ii : In i its). { rewrite EO in Hia. apply in_map_iff in Hia as (j & E & Hj). assert (j = i) by congruence. now subst. }
    assert (U : untrimmed (par d) \/ ~ untrimmed (par d)).
    { destruct (has_pre_trimming (par d)) eqn:E; [right|left; now apply (has_pre_trimming_iff (par d) d MD)].
      intros U. apply (has_pre_trimming_iff (par d) d MD) in U. congruence. }
    rewrite <- HI. destruct U as [U|U].
    + destruct (c37_without_trimming_all_items_once _ _ _ _ _ _ _ _ _ _ _ _ MD U PA) as [_ IN]. apply IN. apply in_map_iff. now exists (i, a).
    + destruct (c37_with_trimming_items_between_the_extremes _ _ _ _ _ _ _ _ _ _ _ _ MD U SH A1 A2 PA) as (totals & kept & (_ & INT & _) & (KE & _) & E & _).
      assert (Ik : In i (map fst kept)) by (rewrite <- E; apply in_map_iff; now exists (i, a)).
      apply in_map_iff in Ik as ([i' v] & E' & Ik). cbn [fst] in E'. subst i'.
      assert (It : In (i, v) totals) by (destruct KE as (SUBS & _); eapply subseq_In; eauto).
      destruct (proj1 (INT i)) as (r & Hr & <- & _); [apply in_map_iff; now exists (i, v)|]. now apply in_map.
  - intros exp HE. destruct (V exp [] "" HE) as (_ & R). exact R.
Qed.

(** the export of a validated design fails for no other reason than a sample ratio mismatch *)
Theorem c87_validated_designs_can_be_exported :
  forall T argsort G (shuffle_of sample_of : G -> nat -> list nat * G) by_date frac draw pm column raw rows c g g' l s
      kstest binomtest ttest_1samp binom sh bytes rate,
    orders_by_date by_date -> ~ In column taken_names ->
    estimate_all T argsort shuffle_of sample_of by_date frac draw pm column [] raw c g = (g', Ok (rows, l)) ->
    Z.of_nat (List.length rows) < 2 ^ 53 -> In (sm_design s) (map sm_design l) -> bytes <> [] ->
    simulated_false_positive_rate s = Ok (Some rate) -> all_robustness_checks_pass kstest binomtest ttest_1samp s = Ok (Some true) ->
    (forall k n, exists x, binom k n = Ok x /\ nltb x srm_threshold = false) ->
    exists d' out, export_design kstest binomtest ttest_1samp binom column sh bytes s rows = (d', Ok out).
Proof.
  intros T argsort G shuffle_of sample_of by_date frac draw pm column raw rows c g g' l s kstest binomtest ttest_1samp binom sh bytes rate HO HN H HB Hs NB E1 E2 HBI.
  unfold estimate_all in H.
  destruct (let! rows0 := prepare_historical by_date frac draw pm column [] raw in _) as [[rows' [ds minimum]]|] eqn:EP; [|discriminate].
  apply bind_ok in EP as (rows0 & HPR & EP). apply bind_ok in EP as (dm & HDS & EP).
  assert (rows0 = rows' /\ dm = (ds, minimum)) as [-> ->] by (split; congruence). clear EP.
  destruct (estimate_designs _ _ _ _ _ minimum ds g) as [g1 [l1|]] eqn:EE; [|discriminate].
  assert (rows' = rows /\ l1 = l) as [-> ->] by (split; congruence). clear H.
  destruct (prepared_panel _ _ _ _ _ _ _ HO HPR) as (_ & HA & items & lo & hi & HP & _).
  apply estimates_come_from in EE.
  assert (Hd : In (sm_design s) ds).
  { assert (X : map sm_design l = ds); [|now rewrite <- X]. clear - EE HN.
    induction EE as [|d s' ds l (s0 & ga & x & E1 & E2) _ IH]; [reflexivity|]. cbn [map]. f_equal; [|exact IH].
    destruct (new_analysis_ok column rows HN minimum d) as (s0' & E1' & D & _). assert (s0' = s0) as -> by congruence.
    destruct (estimate_keeps column rows T argsort G shuffle_of sample_of s0 ga s' x E2) as (K1 & _). congruence. }
  destruct (simulated_design column rows items lo hi HP c ds minimum HDS HB _ Hd) as (MD & EM & _).
  unfold export_design. rewrite E1. cbn [bind raise_if]. rewrite E2. cbn [bind raise_if negb].
  apply (c37_fails_only_on_sample_ratio_mismatch binom _ _ _ _ sh bytes (par (sm_design s))); auto.
  - unfold assignment_rows. rewrite map_length. lia.
  - simpl. tauto.
  - discriminate.
  - right. exists "week_id". rewrite EM. simpl. tauto.
Qed.

(** *** An example: sixty items, five weeks of weekly data, a crossover design of four weeks *)
Definition ex_raw : list obs := flat_map (fun i => map (fun w => mkObs i (w * (7 * day)) [Fin (IZR w)]) [0; 1; 2; 3; 4]) sixty.
Definition ex_candidates : candidates := mkCand [4] [1] [f0] [f0] [f0] true false 1.

Lemma ex_raw_in r : In r ex_raw <-> exists i w, In i sixty /\ 0 <= w < 5 /\ r = mkObs i (w * (7 * day)) [Fin (IZR w)].
Proof.
  unfold ex_raw. rewrite in_flat_map. split.
  - intros (i & Hi & Hr). apply in_map_iff in Hr as (w & <- & Hw). exists i, w. split; [exact Hi|]. split; [|reflexivity].
    cbn in Hw. lia.
  - intros (i & w & Hi & Hw & ->). exists i. split; [exact Hi|]. apply in_map_iff. exists w. split; [reflexivity|].
    assert (w = 0 \/ w = 1 \/ w = 2 \/ w = 3 \/ w = 4) by lia. cbn. intuition lia.
Qed.

Example c87_example : forall by_date draw, orders_by_date by_date ->
  exists rows s g l s2 g2 aa ab,
    estimate_all cauchy argsort_ref (fun (g : unit) n => (seq 0 n, g)) same_row by_date f1 draw "clicks" "clicks" [] ex_raw ex_candidates tt = (g, Ok (rows, l)) /\
    In s l /\ crossover (par (sm_design s)) = true /\
    validate_selected cauchy argsort_ref (fun (g : unit) n => (seq 0 n, g)) same_row alternate (fun g l => (hd 0%Z l, g)) false 3 s (historical_frame "clicks" rows) tt = ((s2, g2), Ok tt) /\
    sm_aa s2 = Some aa /\ sm_ab s2 = Some ab /\ List.length aa = 3%nat /\
    exists d' out, export_design (fun _ => Ok (Fin 1)) (fun _ _ _ _ => Ok (Fin 1)) (fun _ _ => Ok (Fin 1)) (fun _ _ => Ok (Fin 1)) "clicks" (fun n => seq 0 n) [7%N] s2 rows = (d', Ok out) /\
      List.length out = 60%nat.
Proof.
  intros by_date draw HO.
  assert (I0 : In "clicks" allowed_primary_metrics) by (simpl; auto).
  assert (RA : raw_amounts ex_raw).
  { intros r Hr. apply ex_raw_in in Hr as (i & w & _ & Hw & ->). exists (Fin (IZR w)). split; [reflexivity|]. right. exists (IZR w). split; [reflexivity|]. apply IZR_le. lia. }
  assert (NE : ex_raw <> []) by discriminate.
  assert (N60 : NoDup sixty).
  { apply (proj2 (NoDup_count_occ string_dec sixty)). intros x. destruct (in_dec string_dec x sixty) as [I|N0].
    + revert x I. apply Forall_forall. repeat constructor; vm_compute; lia.
    + apply (proj1 (count_occ_not_In string_dec sixty x)) in N0. lia. }
  assert (ND : NoDup (map (fun r => (o_item r, o_date r)) ex_raw)).
  { unfold ex_raw. revert N60. generalize sixty. induction 1 as [|i l N D IH]; [constructor|]. cbn [flat_map]. rewrite map_app. apply NoDup_app'; auto.
    - unfold day. cbn. repeat constructor; cbn; intuition congruence.
    - intros x Hx Hy. apply in_map_iff in Hx as (r & <- & Hr), Hy as (r' & E & Hr'). apply in_map_iff in Hr as (w & <- & _).
      apply in_flat_map in Hr' as (j & Hj & Hr'). apply in_map_iff in Hr' as (w' & <- & _). cbn in E. inversion E. subst. contradiction. }
  assert (RD : regular_dates 7 5 (map o_date ex_raw)).
  { exists 0. intros x. rewrite in_map_iff. split.
    - intros (r & <- & Hr). apply ex_raw_in in Hr as (i & w & _ & Hw & ->). exists w. split; [exact Hw|]. cbn [o_date]. lia.
    - intros (w & Hw & ->). exists (mkObs "0" (w * (7 * day)) [Fin (IZR w)]). split; [cbn [o_date]; lia|]. apply ex_raw_in.
      exists "0", w. split; [|auto]. vm_compute. tauto. }
  destruct (proj2 (c87_complete_history_is_accepted by_date draw "clicks" "clicks" ex_raw 5 HO I0 RA NE)) as (rows & HPR & items & HI & HP).
  { split; [exact RD|]. split; [lia|exact ND]. }
  assert (L60 : List.length items = 60%nat).
  { assert (X : forall i, In i items <-> In i sixty).
    { intros i. rewrite HI, in_map_iff. split.
      - intros (r & <- & Hr). apply ex_raw_in in Hr as (j & w & Hj & _ & ->). exact Hj.
      - intros Hi. exists (mkObs i 0 [Fin 0]). split; [reflexivity|]. apply ex_raw_in. exists i, 0. split; [exact Hi|]. split; [lia|reflexivity]. }
    assert (NI : NoDup items) by (destruct HP as (_ & NI & _); exact NI).
    change 60%nat with (List.length sixty). apply Nat.le_antisymm; apply NoDup_incl_length; auto; intros i; apply X. }
  assert (LR : Z.of_nat (List.length rows) < 2 ^ 53).
  { rewrite (panel_size rows items 0 (5 - 1) HP), L60. reflexivity. }
  assert (HN : ~ In "clicks" taken_names) by (cbn; intuition discriminate).
  assert (exists d, generate_all_valid_designs 60 true false [4] [1] [f0] [f0] [f0] "clicks" (Some 1) = Ok [d] /\ crossover (par d) = true /\ n_pre d = 60) as (d & HG & CR & NP).
  { assert (X : match generate_all_valid_designs 60 true false [4] [1] [f0] [f0] [f0] "clicks" (Some 1) with
                | Ok [d] => (crossover (par d) && (n_pre d =? 60))%bool | _ => false end = true) by (vm_compute; reflexivity).
    revert X. generalize (generate_all_valid_designs 60 true false [4] [1] [f0] [f0] [f0] "clicks" (Some 1)).
    intros [[|d [|d' l]]|] X; try discriminate X. exists d. apply andb_true_iff in X as [X1 X2].
    split; [reflexivity|]. split; [exact X1|now apply Z.eqb_eq]. }
  assert (HDS : designs_to_simulate "clicks" ex_candidates rows = Ok ([d], 1)).
  { unfold designs_to_simulate. rewrite (panel_count rows items 0 (5 - 1) HP), L60. cbn [ex_candidates c_crossover c_traditional c_runtimes c_pretests c_tops c_bottoms c_posts c_washout].
    change (Z.of_nat 60) with 60. rewrite HG.
    assert (HM : calculate_minimum_start_week_id [4] [1] (dedup Z.eqb (map g_week rows)) = Ok 1).
    { apply c11_minimum_start_week_is_least_with_room. split; [discriminate|]. split; [discriminate|].
      assert (W := panel_weeks rows items 0 (5 - 1) HP). assert (W0 : In 0 (dedup Z.eqb (map g_week rows))) by (apply W; lia).
      assert (W4 : In 4 (dedup Z.eqb (map g_week rows))) by (apply W; lia). split; [intros E; rewrite E in W0; destruct W0|]. split.
      - intros r p [<-|[]] [<-|[]]. split; [exists 0|exists 4]; split; auto; lia.
      - intros s' RM. destruct (RM 4 1 (or_introl eq_refl) (or_introl eq_refl)) as ((a & Ha & La) & _). apply W in Ha. lia. }
    rewrite HM. reflexivity. }
  assert (HSH : forall g : unit, shuffles (fun k => fst (seq 0 k, g))) by (intros g k; apply Permutation_refl).
  destruct (c87_every_design_can_be_estimated cauchy argsort_ref unit (fun g n => (seq 0 n, g)) same_row by_date f1 draw "clicks" "clicks" ex_raw rows ex_candidates [d] 1 tt
    argsort_ref_sorts HSH HO HN HPR LR HDS) as (g & l & E & ED & ES).
  destruct l as [|s [|s' l]]; try discriminate ED. cbn [map] in ED. assert (D : sm_design s = d) by congruence.
  assert (CRS : crossover (par (sm_design s)) = true) by now rewrite D.
  assert (PN : plain_name "clicks") by (apply (c69_name_round_trip "clicks" "test"); [simpl; auto|reflexivity]).
  destruct (c87_crossover_designs_can_be_validated cauchy argsort_ref unit (fun g n => (seq 0 n, g)) same_row alternate (fun g l => (hd 0%Z l, g)) by_date f1 draw "clicks" "clicks" ex_raw rows ex_candidates tt g [s] s
    argsort_ref_sorts HSH same_row_samples alternate_draws) with (force := false) (n := 3%nat) (g0 := tt) as (s2 & g2 & aa & ab & EV & D2 & M2 & TH & A1 & A2 & L1 & L2); auto.
  { intros g0 [|w l] NL; [congruence|now left]. }
  { now left. }
  assert (AL : exists rate, simulated_false_positive_rate s2 = Ok (Some rate)).
  { unfold simulated_false_positive_rate, is_statistically_significant, column_of. rewrite A1. destruct aa; [discriminate|]. eexists. reflexivity. }
  destruct AL as (rate & AL).
  assert (MN : exists e, sm_mde s2 = Some e).
  { rewrite M2. destruct (sm_mde s) as [e|] eqn:EM; [eauto|]. destruct (ES s (or_introl eq_refl)) as (X & _). congruence. }
  destruct MN as (e & MN).
  assert (AP : all_robustness_checks_pass (fun _ => Ok (Fin 1)) (fun _ _ _ _ => Ok (Fin 1)) (fun _ _ => Ok (Fin 1)) s2 = Ok (Some true)).
  { destruct aa as [|a0 aa]; [discriminate L1|]. destruct ab as [|b0 ab]; [discriminate L2|].
    assert (LE : nleb (Fin (rnd (1 / 10000))) (Fin 1) = true) by (unfold nleb; apply Rle_bool_true, Rle_trans with (rnd 1); [apply rnd_le; lra|rewrite (rnd_IZR 1) by (simpl; lia); apply Rle_refl]).
    unfold all_robustness_checks_pass, null_p_value_robustness_check_pass, power_robustness_check_pass, false_positive_rate_robustness_check_pass,
      aa_point_estimate_robustness_check_pass, ab_point_estimate_robustness_check_pass, check_pass, null_p_value_robustness_p_value, power_robustness_p_value,
      false_positive_rate_robustness_p_value, aa_point_estimate_robustness_p_value, ab_point_estimate_robustness_p_value, ab_results,
      is_statistically_significant, column_of, is_above_p_value_threshold.
    cbn [mapM]. rewrite A1, A2, MN, TH. cbn [bind]. rewrite LE. reflexivity. }
  destruct (c87_validated_designs_can_be_exported cauchy argsort_ref unit (fun g n => (seq 0 n, g)) same_row by_date f1 draw "clicks" "clicks" ex_raw rows ex_candidates tt g [s] s2
    (fun _ => Ok (Fin 1)) (fun _ _ _ _ => Ok (Fin 1)) (fun _ _ => Ok (Fin 1)) (fun _ _ => Ok (Fin 1)) (fun n => seq 0 n) [7%N] rate HO HN E LR) as (d' & out & EX); auto.
  { rewrite D2. now left. }
  { discriminate. }
  { intros k n. exists (Fin 1). split; [reflexivity|]. apply Checks_Proofs.one_above_threshold. }
  destruct (c87_the_export_is_consistent cauchy argsort_ref unit (fun g n => (seq 0 n, g)) same_row by_date f1 draw "clicks" "clicks" ex_raw rows ex_candidates tt g [s] s2
    (fun _ => Ok (Fin 1)) (fun _ _ _ _ => Ok (Fin 1)) (fun _ _ => Ok (Fin 1)) (fun _ _ => Ok (Fin 1)) (fun n => seq 0 n) [7%N] d' out HO HN E LR) as (_ & _ & _ & _ & LEN & _); auto.
  { rewrite D2. now left. }
  { intros n. apply Permutation_refl. }
  exists rows, s, g, [s], s2, g2, aa, ab. split; [exact E|]. split; [now left|]. split; [exact CRS|]. split; [exact EV|]. split; [exact A1|]. split; [exact A2|]. split; [exact L1|].
  exists d', out. split; [exact EX|]. rewrite D2, D, NP in LEN. lia.
Qed.

(** the sorting routine of the example exists *)
Example c87_example_sorts : orders_by_date isort_by_date.
Proof. exact c27_sorter_exists. Qed.

Print Assumptions c87_prepared_history_is_a_panel.
Print Assumptions c87_every_design_can_be_estimated.
Print Assumptions c87_crossover_designs_can_be_validated.
Print Assumptions c87_complete_history_is_accepted.
Print Assumptions c87_every_panel_passes.
Print Assumptions c87_which_designs_are_offered.
Print Assumptions c87_validated_designs_are_left_alone.
Print Assumptions c87_no_simulations_can_be_repaired_refuted.
Print Assumptions c87_the_export_is_consistent.
Print Assumptions c87_validated_designs_can_be_exported.
Print Assumptions c87_example.
