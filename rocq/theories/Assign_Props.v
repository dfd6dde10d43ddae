(** Properties C36 - C38: outlier trimming, treatment assignment, agreement with validation. *)
From Coq Require Import ZArith NArith Reals List String Bool Permutation Sorting.Sorted Lia Lra.
From Flocq Require Import Core BinarySingleNaN.
Require Import Verif.Base Verif.Num Verif.NumOrd Verif.F64 Verif.MD5 Verif.ListLib Verif.Rank Verif.Design_Model
  Verif.Design_Spec Verif.Design_Proofs Verif.Design_Yaml_Proofs Verif.Design_Props
  Verif.Rows_Model Verif.Rows_Spec Verif.Rows_Proofs Verif.Checks_Model Verif.Checks_Spec
  Verif.Checks_Proofs Verif.Checks_Props Verif.Pivot_Proofs Verif.Assign_Model Verif.Assign_Spec Verif.Assign_Proofs.
Import ListNotations.
Open Scope string_scope.
Open Scope Z_scope.

(* ------------------------------------------------------------------ *)
(** C36. *)
Theorem c36_succeeds_iff_percentiles_valid {A} (value : A -> num) t b shuffle rows :
  Z.of_nat (List.length rows) <= 2 ^ 53 ->
  (is_ok (trim_outliers value t b shuffle rows) <->
   is_finite t = true /\ is_finite b = true /\ (0 <= B2R t)%R /\ (0 <= B2R b)%R /\ (rnd (B2R t + B2R b) < 1)%R).
Proof. apply trim_succeeds. Qed.

Theorem c36_removes_exactly_the_extremes {A} (value : A -> num) t b shuffle rows out :
  shuffles shuffle -> (forall r, In r rows -> value r <> NaN) -> Z.of_nat (List.length rows) < 2 ^ 53 ->
  trim_outliers value t b shuffle rows = Ok out ->
  let n := Z.of_nat (List.length rows) in
  extremes_removed value (Z.to_nat (trim_count t n)) (Z.to_nat (trim_count b n)) rows out /\
  Z.of_nat (List.length out) = n - trim_count t n - trim_count b n.
Proof.
  intros SH HV L H n.
  destruct (proj1 (trim_succeeds value t b shuffle rows ltac:(lia)) (ex_intro _ _ H)) as (Ft & Fb & T0 & B0 & S).
  destruct (trim_ok_inv _ _ _ _ _ _ H) as (kt & kb & E1 & E2 & C). fold n in E1, E2, L.
  destruct (trim_counts_fit t b n kt kb ltac:(lia) T0 B0 S E1 E2) as (K1 & K2 & K3).
  rewrite <- (trim_count_floor _ _ _ E1), <- (trim_count_floor _ _ _ E2).
  assert (X : extremes_removed value (Z.to_nat kt) (Z.to_nat kb) rows out).
  { destruct C as [(-> & -> & ->)| -> ].
    - split; [apply subseq_refl|]. exists [], []. rewrite app_nil_r. simpl. repeat split; auto; intros; contradiction.
    - replace kt with (Z.of_nat (Z.to_nat kt)) at 2 by lia. replace kb with (Z.of_nat (Z.to_nat kb)) at 2 by lia.
      apply trim_slice; auto. unfold n in *. lia. }
  split; auto. destruct X as (_ & hi & lo & P & L1 & L2 & _). apply Permutation_length in P.
  rewrite !app_length in P. unfold n in *. lia.
Qed.

(** which of several rows with equal value are removed is random, but the values kept are not *)
Theorem c36_kept_values_do_not_depend_on_tie_break {A} (value : A -> num) t b sh1 sh2 rows out1 out2 :
  shuffles sh1 -> shuffles sh2 -> (forall r, In r rows -> value r <> NaN) ->
  Z.of_nat (List.length rows) < 2 ^ 53 ->
  trim_outliers value t b sh1 rows = Ok out1 -> trim_outliers value t b sh2 rows = Ok out2 ->
  Permutation (map value out1) (map value out2).
Proof.
  intros S1 S2 HV L H1 H2.
  destruct (proj1 (trim_succeeds value t b sh1 rows ltac:(lia)) (ex_intro _ _ H1)) as (Ft & Fb & T0 & B0 & S).
  destruct (trim_ok_inv _ _ _ _ _ _ H1) as (kt & kb & E1 & E2 & C1).
  destruct (trim_counts_fit t b (Z.of_nat (List.length rows)) kt kb ltac:(split; [lia|exact L]) T0 B0 S E1 E2) as (K1 & K2 & K3).
  assert (E : ((kt =? 0) && (kb =? 0)) = true /\ out1 = rows /\ out2 = rows \/
              out1 = loc_rows (kept_pos (fun i => nth i (map value rows) NaN) (sh1 (List.length rows)) kt kb (List.length rows)) rows /\
              out2 = loc_rows (kept_pos (fun i => nth i (map value rows) NaN) (sh2 (List.length rows)) kt kb (List.length rows)) rows).
  { unfold trim_outliers in H1, H2.
    apply floor_mul'_eq in E1, E2. rewrite E1, E2 in H1, H2.
    apply bind_ok in H1 as ([] & _ & H1). apply bind_ok in H1 as ([] & _ & H1). apply bind_ok in H1 as ([] & _ & H1).
    apply bind_ok in H2 as ([] & _ & H2). apply bind_ok in H2 as ([] & _ & H2). apply bind_ok in H2 as ([] & _ & H2).
    cbn [bind] in H1, H2. destruct ((kt =? 0) && (kb =? 0)).
    - left. split; [reflexivity|]. split; congruence.
    - right. injection H1 as <-. injection H2 as <-. split; reflexivity. }
  destruct E as [(_ & -> & ->)|(-> & ->)]; [reflexivity|].
  destruct (trim_values value rows (Z.to_nat kt) (Z.to_nat kb) (sh1 (List.length rows)) (S1 _) HV) as (v1 & P1 & O1 & Q1).
  destruct (trim_values value rows (Z.to_nat kt) (Z.to_nat kb) (sh2 (List.length rows)) (S2 _) HV) as (v2 & P2 & O2 & Q2).
  rewrite !Z2Nat.id in Q1, Q2 by auto. rewrite Q1, Q2.
  replace v2 with v1; [reflexivity|]. apply (SSorted_unique (fun a b => nleb b a = true)); auto.
  - intros x y A1 A2. now apply nleb_antisym.
  - now rewrite <- P1, <- P2.
Qed.

(** with equal counts of rows and of zero to trim, the data comes back as it is, missing values
    included *)
Theorem c36_nothing_to_trim_returns_the_data {A} (value : A -> num) t b shuffle rows out :
  trim_outliers value t b shuffle rows = Ok out ->
  trim_count t (Z.of_nat (List.length rows)) = 0 -> trim_count b (Z.of_nat (List.length rows)) = 0 ->
  out = rows.
Proof.
  intros H Z1 Z2. unfold trim_outliers in H.
  apply bind_ok in H as ([] & _ & H). apply bind_ok in H as ([] & _ & H). apply bind_ok in H as ([] & _ & H).
  apply bind_ok in H as (kt & E1 & H). apply bind_ok in H as (kb & E2 & H). apply floor_mul'_eq in E1, E2.
  rewrite <- (trim_count_floor _ _ _ E1) in Z1. rewrite <- (trim_count_floor _ _ _ E2) in Z2. subst.
  now inversion H.
Qed.

(** rows whose value is missing have no rank: as soon as one row is trimmed they all go *)
Theorem c36_size_with_missing_values_refuted :
  exists (rows : list num) t b shuffle out, shuffles shuffle /\
    trim_outliers (fun x => x) t b shuffle rows = Ok out /\
    Z.of_nat (List.length out) <>
      Z.of_nat (List.length rows) - trim_count t (Z.of_nat (List.length rows)) - trim_count b (Z.of_nat (List.length rows)).
Proof.
  set (rows := [NaN; NaN; NaN; NaN]). set (sh := fun n => seq 0 n).
  assert (H : trim_outliers (fun x => x) (flit 1 4) f0 sh rows = Ok []).
  { unfold trim_outliers. change (Z.of_nat (List.length rows)) with 4.
    replace (fltb (flit 1 4) f0) with false by (vm_compute; reflexivity).
    replace (fltb f0 f0) with false by (vm_compute; reflexivity).
    replace (fgeb (fadd (flit 1 4) f0) f1) with false by (vm_compute; reflexivity).
    replace (floor_mul' 4 (flit 1 4)) with (Ok 1) by (vm_compute; reflexivity).
    replace (floor_mul' 4 f0) with (Ok 0) by (vm_compute; reflexivity). reflexivity. }
  exists rows, (flit 1 4), f0, sh, []. split; [intros n; reflexivity|]. split; [exact H|].
  destruct (trim_ok_inv _ _ _ _ _ _ H) as (kt & kb & E1 & E2 & _).
  assert (F1 : floor_mul (flit 1 4) 4 = Ok 1) by (vm_compute; reflexivity).
  assert (F2 : floor_mul f0 4 = Ok 0) by (vm_compute; reflexivity).
  change (Z.of_nat (List.length rows)) with 4.
  rewrite <- (trim_count_floor _ _ _ F1), <- (trim_count_floor _ _ _ F2). simpl. lia.
Qed.

(** the check "otherwise you will remove all the data" does not prevent it: with the doubles
    1/6 and 0.8333333333333333, whose binary64 sum is below 1, six rows are all removed *)
Definition sixth : f64 := flit 1 6.
Definition five_sixths_below : f64 := fdiv (of_Z 7505999378950826) (of_Z 9007199254740992).
Theorem c36_some_row_is_kept_refuted :
  exists (rows : list num) t b shuffle, shuffles shuffle /\ (forall r, In r rows -> r <> NaN) /\ rows <> [] /\
    trim_outliers (fun x => x) t b shuffle rows = Ok [].
Proof.
  set (rows := map Fin (map IZR [1; 2; 3; 4; 5; 6])). set (sh := fun n => seq 0 n).
  assert (SH : shuffles sh) by (intros n; reflexivity).
  assert (F1 : floor_mul sixth 6 = Ok 1) by (vm_compute; reflexivity).
  assert (F2 : floor_mul five_sixths_below 6 = Ok 5) by (vm_compute; reflexivity).
  assert (NN : forall r, In r rows -> r <> NaN).
  { intros r Hr. apply in_map_iff in Hr as (x & <- & _). discriminate. }
  exists rows, sixth, five_sixths_below, sh. split; auto. split; auto. split; [discriminate|].
  destruct (trim_outliers (fun x => x) sixth five_sixths_below sh rows) as [out|e] eqn:E.
  - f_equal. destruct (c36_removes_exactly_the_extremes (fun x => x) _ _ _ _ _ SH NN ltac:(simpl; lia) E) as [_ HL].
    change (Z.of_nat (List.length rows)) with 6 in HL.
    rewrite <- (trim_count_floor _ _ _ F1), <- (trim_count_floor _ _ _ F2) in HL.
    apply length_zero_iff_nil. lia.
  - exfalso. assert (S : is_ok (trim_outliers (fun x => x) sixth five_sixths_below sh rows)); [|rewrite E in S; now destruct S].
    unfold trim_outliers. change (Z.of_nat (List.length rows)) with 6.
    replace (fltb sixth f0) with false by (vm_compute; reflexivity).
    replace (fltb five_sixths_below f0) with false by (vm_compute; reflexivity).
    replace (fgeb (fadd sixth five_sixths_below) f1) with false by (vm_compute; reflexivity).
    apply floor_mul'_eq in F1, F2. rewrite F1, F2. eexists. reflexivity.
Qed.

Example c36_example : (* ten rows, 10% from the top and 20% from the bottom *)
  let rows := map Fin (map IZR [5; 3; 9; 3; 1; 4; 7; 3; 8; 2]) in
  exists out, trim_outliers (fun x => x) (flit 1 10) (flit 2 10) (fun n => rev (seq 0 n)) rows = Ok out /\
    List.length out = 7%nat /\ shuffles (fun n => rev (seq 0 n)) /\ (forall r, In r rows -> r <> NaN).
Proof.
  set (rows := map Fin (map IZR [5; 3; 9; 3; 1; 4; 7; 3; 8; 2])). cbv zeta.
  assert (SH : shuffles (fun n => rev (seq 0 n))) by (intros n; symmetry; apply Permutation_rev).
  assert (NN : forall r, In r rows -> r <> NaN).
  { intros r Hr. apply in_map_iff in Hr as (x & <- & _). discriminate. }
  assert (F1 : floor_mul (flit 1 10) 10 = Ok 1) by (vm_compute; reflexivity).
  assert (F2 : floor_mul (flit 2 10) 10 = Ok 2) by (vm_compute; reflexivity).
  assert (S : is_ok (trim_outliers (fun x => x) (flit 1 10) (flit 2 10) (fun n => rev (seq 0 n)) rows)).
  { unfold trim_outliers. change (Z.of_nat (List.length rows)) with 10.
    replace (fltb (flit 1 10) f0) with false by (vm_compute; reflexivity).
    replace (fltb (flit 2 10) f0) with false by (vm_compute; reflexivity).
    replace (fgeb (fadd (flit 1 10) (flit 2 10)) f1) with false by (vm_compute; reflexivity).
    pose proof (proj2 (floor_mul'_eq _ _ _) F1) as G1. pose proof (proj2 (floor_mul'_eq _ _ _) F2) as G2.
    rewrite G1, G2. eexists. reflexivity. }
  destruct S as (out & E). exists out. split; auto. split; [|split; auto].
  destruct (c36_removes_exactly_the_extremes (fun x => x) _ _ _ _ _ SH NN ltac:(simpl; lia) E) as [_ HL].
  change (Z.of_nat (List.length rows)) with 10 in HL.
  rewrite <- (trim_count_floor _ _ _ F1), <- (trim_count_floor _ _ _ F2) in HL. lia.
Qed.

(* ------------------------------------------------------------------ *)
(** C37. *)

(** [items] is the table of items and their totals over the last pretest weeks *)
Definition pretest_totals (k : Z) (rows : list hrow) (items : list (string * num)) : Prop :=
  NoDup (map fst items) /\
  (forall i, In i (map fst items) <->
     exists r, In r rows /\ h_item r = i /\ recent k (map h_week rows) (h_week r)) /\
  (forall i x, In (i, x) items -> exists m, is_max m (map h_week rows) /\
     x = total (fun r => (m - k <? h_week r) && String.eqb (h_item r) i) h_metric rows).

Lemma pretest_items_totals d rows : pretest_totals (pretest (par d)) rows (pretest_items d rows).
Proof.
  unfold pretest_items. set (k := pretest (par d)).
  destruct rows as [|r0 rs] eqn:ER.
  { cbn. split; [constructor|]. split; [|contradiction]. intros i. split; [contradiction|]. intros (r & [] & _). }
  rewrite <- ER. assert (NE : map h_week rows <> []) by (rewrite ER; discriminate).
  destruct (list_max_spec (map h_week rows) NE) as (m & -> & Hm1 & Hm2). clear ER NE r0 rs.
  set (sel := filter (fun r => m - k <? h_week r) rows).
  assert (FST : map fst (map (fun g => (fst g, hsum (snd g))) (groupby String.eqb sleb h_item sel)) =
                group_keys String.eqb sleb h_item sel).
  { rewrite map_map. unfold groupby. rewrite map_map. simpl. apply map_id. }
  split; [|split].
  - rewrite FST. apply group_keys_NoDup. apply ord_string.
  - intros i. rewrite FST, (group_keys_In _ _ _ ord_string). split.
    + intros (r & Hr & <-). apply filter_In in Hr as [Hr K]. exists r. split; auto. split; auto.
      exists m. split; auto. split; auto. now apply Z.ltb_lt.
    + intros (r & Hr & <- & m' & M1 & M2 & K). exists r. split; auto. apply filter_In. split; auto.
      assert (m = m') by (apply Z.le_antisymm; auto). subst m'. now apply Z.ltb_lt.
  - intros i x Hx. exists m. split; [split; auto|]. apply in_map_iff in Hx as ((j & g) & E & Hg). simpl in E. inversion E; subst j x.
    unfold groupby in Hg. apply in_map_iff in Hg as (j & E' & _). inversion E'; subst.
    rewrite total_filter. unfold hsum. f_equal. f_equal. unfold group_of, sel. clear.
    induction rows as [|r rows' IH]; simpl; auto. destruct (m - k <? h_week r); simpl; [|auto].
    destruct (String.eqb (h_item r) i); simpl; [f_equal|]; auto.
Qed.

Lemma pta_ok binom cols ic wc tc sh bytes d rows d' out :
  perform_treatment_assignment binom cols ic wc tc sh bytes d rows = (d', Ok out) ->
  exists s, salt (par d') = Some s /\ s <> "" /\ d' = set_salt d (Some s) /\
    (forall s0, salt (par d) = Some s0 -> s0 <> "" -> s = s0) /\
    exists items, experiment_items sh d' rows = Ok items /\
      out = map (fun i => (i, coinflip_call (mkCoinflipRec s) i)) items.
Proof.
  unfold perform_treatment_assignment. cbv zeta.
  destruct (let! _ := raise_if _ _ in _) as [u|e] eqn:C; [|discriminate].
  assert (SD : forall s, salt (par d) = Some s -> d = set_salt d (Some s)).
  { intros s E. destruct d as [p a b]. destruct p. simpl in *. subst. reflexivity. }
  assert (K : forall d1 c, 
    (d1, let! _ := raise_if (has_pre_trimming (par d) && negb (in_columns (metric (par d)) cols)) (KeyError (metric (par d))) in
         let! items := experiment_items sh d1 rows in
         let! _ := run_check "no_sample_ratio_mismatch" []
            (check_srm binom srm_threshold (map (fun i => (i, coinflip_call c i)) items)) in
         Ok (map (fun i => (i, coinflip_call c i)) items)) = (d', Ok out) ->
    d1 = d' /\ exists items, experiment_items sh d' rows = Ok items /\ out = map (fun i => (i, coinflip_call c i)) items).
  { intros d1 c H. inversion H as [[H1 H2]]. subst d1. split; auto.
    apply bind_ok in H2 as ([] & _ & H2). apply bind_ok in H2 as (items & E & H2).
    apply bind_ok in H2 as ([] & _ & H2). exists items. split; auto. congruence. }
  assert (RS : forall c, coinflip_with_random_salt bytes = Ok c -> cf_salt c <> "" /\ mkCoinflipRec (cf_salt c) = c).
  { intros c Hc. unfold coinflip_with_random_salt, mk_coinflip in Hc.
    destruct (hex_of_bytes bytes); inversion Hc; subst. split; [discriminate|reflexivity]. }
  destruct (salt (par d)) as [s|] eqn:ES.
  - destruct (String.eqb_spec s "") as [->|NE].
    + destruct (coinflip_with_random_salt bytes) as [c|e] eqn:Ec; cbn [bind]; [|discriminate]. intros H.
      apply K in H as (<- & items & E & Ho). destruct (RS _ eq_refl) as [R1 R2].
      exists (cf_salt c). split; auto. split; auto. split; auto. split; [congruence|].
      exists items. split; [assumption|now rewrite R2].
    + assert (M : mk_coinflip s = Ok (mkCoinflipRec s)) by (destruct s; [congruence|reflexivity]).
      rewrite M. cbn [bind]. intros H. apply K in H as (<- & items & E & Ho).
      exists s. split; auto. split; auto. split; auto. split; [congruence|]. eauto.
  - destruct (coinflip_with_random_salt bytes) as [c|e] eqn:Ec; cbn [bind]; [|discriminate]. intros H.
    apply K in H as (<- & items & E & Ho). destruct (RS _ eq_refl) as [R1 R2].
    exists (cf_salt c). split; auto. split; auto. split; auto. split; [congruence|].
    exists items. split; [assumption|now rewrite R2].
Qed.

(** each item once; the arm is the coin flip of the salt stored on the design after the call,
    which is the salt it had before if it had one; nothing else on the design changes *)
Theorem c37_arms_are_coinflips_of_the_stored_salt binom cols ic wc tc sh bytes d rows d' out :
  perform_treatment_assignment binom cols ic wc tc sh bytes d rows = (d', Ok out) ->
  exists s, d' = set_salt d (Some s) /\ s <> "" /\
    (forall s0, salt (par d) = Some s0 -> s0 <> "" -> s = s0) /\
    (forall i a, In (i, a) out -> a = coinflip_call (mkCoinflipRec s) i).
Proof.
  intros H. destruct (pta_ok _ _ _ _ _ _ _ _ _ _ _ H) as (s & H1 & H2 & H3 & H4 & items & H5 & ->).
  exists s. split; auto. split; auto. split; auto. intros i a Hi. apply in_map_iff in Hi as (j & E & _). congruence.
Qed.

Definition untrimmed (p : params) : Prop := B2R (top p) = 0%R /\ B2R (bottom p) = 0%R.

Lemma has_pre_trimming_iff p d : mk_design p = Ok d -> (has_pre_trimming p = false <-> untrimmed p).
Proof.
  intros H. apply mk_design_iff in H as [[] _]. destruct ok_finite as (F1 & F2 & _). unfold has_pre_trimming, untrimmed.
  rewrite orb_false_iff. split.
  - intros [H1 H2]. split; apply Rle_antisym; auto; apply Rnot_lt_le; intros L; apply fgtb_f0 in L; auto; congruence.
  - intros [H1 H2]. split.
    + destruct (fgtb (top p) f0) eqn:E; auto. apply fgtb_f0 in E; auto. lra.
    + destruct (fgtb (bottom p) f0) eqn:E; auto. apply fgtb_f0 in E; auto. lra.
Qed.

Lemma map_fst_pairs {A B} (f : A -> B) l : map fst (map (fun i => (i, f i)) l) = l.
Proof. rewrite map_map. apply map_id. Qed.

Theorem c37_without_trimming_all_items_once binom cols ic wc tc sh bytes p d rows d' out :
  mk_design p = Ok d -> untrimmed p ->
  perform_treatment_assignment binom cols ic wc tc sh bytes d rows = (d', Ok out) ->
  NoDup (map fst out) /\ (forall i, In i (map fst out) <-> In i (map h_item rows)).
Proof.
  intros M U H. destruct (pta_ok _ _ _ _ _ _ _ _ _ _ _ H) as (s & H1 & H2 & H3 & H4 & items & H5 & ->).
  rewrite map_fst_pairs. unfold experiment_items in H5.
  replace (has_pre_trimming (par d')) with false in H5.
  2:{ symmetry. rewrite H3. unfold has_pre_trimming. cbn [par set_salt top bottom].
      rewrite (proj2 (proj1 (mk_design_iff p d) M)). cbn [par]. now apply (has_pre_trimming_iff p d M). }
  inversion H5; subst items. split; [apply dedup_NoDup; apply String.eqb_eq|].
  intros i. apply dedup_In. apply String.eqb_eq.
Qed.

Lemma total_finite {R} (c : R -> bool) v rows :
  (forall r, In r rows -> v r <> PInf /\ v r <> NInf) -> exists q, total c v rows = Fin q.
Proof.
  induction rows as [|r l IH]; intros H; unfold total in *; simpl; eauto.
  destruct IH as (q & ->); [intros; apply H; now right|].
  destruct (c r); [|eexists; reflexivity]. destruct (H r) as [F1 F2]; [now left|].
  destruct (v r); try congruence; eexists; reflexivity.
Qed.

(** with trimming: the items left when the highest and lowest totals are removed *)
Theorem c37_with_trimming_items_between_the_extremes binom cols ic wc tc sh bytes p d rows d' out :
  mk_design p = Ok d -> ~ untrimmed p -> shuffles sh ->
  (forall r, In r rows -> h_metric r <> PInf /\ h_metric r <> NInf) ->
  Z.of_nat (List.length rows) < 2 ^ 53 ->
  perform_treatment_assignment binom cols ic wc tc sh bytes d rows = (d', Ok out) ->
  exists totals kept, pretest_totals (pretest p) rows totals /\
    (let n := Z.of_nat (List.length totals) in
     extremes_removed snd (Z.to_nat (trim_count (top p) n)) (Z.to_nat (trim_count (bottom p) n)) totals kept /\
     Z.of_nat (List.length kept) = n - trim_count (top p) n - trim_count (bottom p) n) /\
    map fst out = map fst kept /\ NoDup (map fst out).
Proof.
  intros M U SH FM L H. destruct (pta_ok _ _ _ _ _ _ _ _ _ _ _ H) as (s & H1 & H2 & H3 & H4 & items & H5 & ->).
  rewrite map_fst_pairs. unfold experiment_items in H5.
  assert (P : par d = p) by (now rewrite (proj2 (proj1 (mk_design_iff p d) M))).
  replace (has_pre_trimming (par d')) with true in H5.
  2:{ symmetry. rewrite H3. unfold has_pre_trimming. cbn [par set_salt top bottom]. rewrite P.
      fold (has_pre_trimming p).
      destruct (has_pre_trimming p) eqn:E; auto. apply (has_pre_trimming_iff p d M) in E. contradiction. }
  rewrite H3 in H5. cbn [par set_salt top bottom] in H5. rewrite P in H5.
  replace (pretest_items (set_salt d (Some s)) rows) with (pretest_items d rows) in H5 by reflexivity.
  apply bind_ok in H5 as (kept & T & H5). inversion H5; subst items.
  assert (PT := pretest_items_totals d rows). rewrite P in PT.
  exists (pretest_items d rows), kept. split; auto.
  assert (X : forall r, In r (pretest_items d rows) -> snd r <> NaN).
  { intros [i x] Hr. destruct PT as (_ & _ & PT). destruct (PT i x Hr) as (m & _ & ->). simpl.
    destruct (total_finite (fun r => (m - pretest p <? h_week r) && (h_item r =? i)%string) h_metric rows FM) as (q & ->).
    discriminate. }
  assert (LL : (List.length (pretest_items d rows) <= List.length rows)%nat).
  { destruct PT as (ND & IN & _). rewrite <- (map_length fst). rewrite <- (map_length h_item rows).
    apply NoDup_incl_length; auto. intros i Hi. apply IN in Hi as (r & Hr & <- & _). now apply in_map. }
  assert (R := c36_removes_exactly_the_extremes snd (top p) (bottom p) sh _ kept SH X ltac:(lia) T).
  cbv zeta in R. split; auto. split; auto.
  destruct R as ((SB & _) & _). apply (subseq_map fst) in SB. eapply subseq_NoDup; [exact SB|apply PT].
Qed.

(** repeating the call on the design returned by the first: the salt stays and an item assigned
    both times gets the same arm, whatever the second call draws and whatever data it sees *)
Theorem c37_second_call_reproduces_arms binom cols ic wc tc sh bytes d rows d1 out1
    cols2 ic2 wc2 tc2 sh2 bytes2 rows2 d2 out2 :
  perform_treatment_assignment binom cols ic wc tc sh bytes d rows = (d1, Ok out1) ->
  perform_treatment_assignment binom cols2 ic2 wc2 tc2 sh2 bytes2 d1 rows2 = (d2, Ok out2) ->
  d2 = d1 /\ forall i a b, In (i, a) out1 -> In (i, b) out2 -> a = b.
Proof.
  intros H1 H2. destruct (pta_ok _ _ _ _ _ _ _ _ _ _ _ H1) as (s1 & A1 & A2 & A3 & A4 & items1 & A5 & ->).
  destruct (pta_ok _ _ _ _ _ _ _ _ _ _ _ H2) as (s2 & B1 & B2 & B3 & B4 & items2 & B5 & ->).
  assert (s2 = s1) by (apply B4; auto). subst s2. split.
  - rewrite B3, A3. reflexivity.
  - intros i a b Ha Hb. apply in_map_iff in Ha as (x & Ex & _), Hb as (y & Ey & _). congruence.
Qed.

(** with the same data, tie-break included, it returns the same table *)
Theorem c37_second_call_same_data binom cols ic wc tc sh bytes d rows d1 out1 bytes2 :
  perform_treatment_assignment binom cols ic wc tc sh bytes d rows = (d1, Ok out1) ->
  perform_treatment_assignment binom cols ic wc tc sh bytes2 d1 rows = (d1, Ok out1).
Proof.
  intros H1. assert (H := H1). destruct (pta_ok _ _ _ _ _ _ _ _ _ _ _ H1) as (s & A1 & A2 & A3 & A4 & items & A5 & Eo).
  unfold perform_treatment_assignment in *. cbv zeta in *.
  assert (P : has_pre_trimming (par d1) = has_pre_trimming (par d)) by (rewrite A3; reflexivity).
  assert (MM : metric (par d1) = metric (par d)) by (rewrite A3; reflexivity).
  rewrite P, MM.
  destruct (let! _ := raise_if _ _ in _) as [u|e] eqn:C; [|discriminate].
  rewrite A1. destruct (String.eqb_spec s ""); [contradiction|].
  assert (M : mk_coinflip s = Ok (mkCoinflipRec s)) by (destruct s; [congruence|reflexivity]).
  rewrite M. cbn [bind]. f_equal.
  assert (RS : forall c, coinflip_with_random_salt bytes = Ok c -> set_salt d (Some (cf_salt c)) = d1 -> c = mkCoinflipRec s).
  { intros c _ E. rewrite <- E in A1. cbn in A1. destruct c. simpl in *. congruence. }
  destruct (salt (par d)) as [s'|] eqn:ES.
  - destruct (String.eqb_spec s' "") as [->|NE].
    + destruct (coinflip_with_random_salt bytes) as [c|e] eqn:Ec; cbn [bind] in H; [|discriminate].
      inversion H as [[Hd Hr]]. assert (Ecs : c = mkCoinflipRec s) by (apply RS; auto). rewrite <- Ecs. reflexivity.
    + assert (s = s') by auto. subst s'. rewrite M in H. cbn [bind] in H. inversion H as [[Hd Hr]].
      reflexivity.
  - destruct (coinflip_with_random_salt bytes) as [c|e] eqn:Ec; cbn [bind] in H; [|discriminate].
    inversion H as [[Hd Hr]]. assert (Ecs : c = mkCoinflipRec s) by (apply RS; auto). rewrite <- Ecs. reflexivity.
Qed.

(** a failed call may still have stored a salt on the design *)
Theorem c37_failed_call_leaves_design_refuted :
  exists binom cols ic wc tc sh bytes d rows d' e, mk_design (par d) = Ok d /\ shuffles sh /\
    perform_treatment_assignment binom cols ic wc tc sh bytes d rows = (d', Err e) /\ d' <> d.
Proof.
  exists (fun _ _ => Ok (Fin 0)), ["item"; "week"], "item", (Some "week"), "arm", (fun n => seq 0 n), [7%N],
    ex_design, [], (set_salt ex_design (Some "07")), (KeyError "clicks").
  split; [apply c01_accepts|]. split; [intros n; reflexivity|]. split.
  - assert (HT : has_pre_trimming (par ex_design) = true) by (vm_compute; reflexivity).
    unfold perform_treatment_assignment. rewrite HT. reflexivity.
  - intros E. apply (f_equal (fun d => salt (par d))) in E. discriminate.
Qed.

(** when the arguments are in order the call fails only if the sample ratio test does *)
Theorem c37_fails_only_on_sample_ratio_mismatch binom cols ic wc tc sh bytes p d rows :
  mk_design p = Ok d -> Z.of_nat (List.length rows) <= 2 ^ 53 ->
  In ic cols -> ic <> tc -> bytes <> [] ->
  (untrimmed p \/ exists w, wc = Some w /\ In w cols /\ In (metric p) cols) ->
  (forall k n, exists x, binom k n = Ok x /\ nltb x srm_threshold = false) ->
  exists d' out, perform_treatment_assignment binom cols ic wc tc sh bytes d rows = (d', Ok out).
Proof.
  intros M L IC NT NB W HB. assert (P : par d = p) by (now rewrite (proj2 (proj1 (mk_design_iff p d) M))).
  unfold perform_treatment_assignment. cbv zeta. rewrite P.
  assert (INC : forall c, In c cols -> in_columns c cols = true).
  { intros c Hc. unfold in_columns. apply existsb_exists. exists c. split; auto. apply String.eqb_refl. }
  match goal with |- context [match ?X with Ok _ => _ | Err _ => _ end] => assert (CK : X = Ok tt) end.
  { destruct W as [U|(w & -> & W1 & W2)].
    - rewrite (proj2 (has_pre_trimming_iff p d M) U). cbn [andb raise_if bind].
      destruct wc; cbn [forallb]; rewrite (INC ic IC); cbn [andb negb raise_if bind];
        (destruct (String.eqb_spec ic tc); [contradiction|reflexivity]).
    - rewrite andb_false_r. cbn [raise_if bind]. destruct (has_pre_trimming p); cbn [forallb];
        rewrite ?(INC ic IC), ?(INC w W1); cbn [andb negb raise_if bind];
        (destruct (String.eqb_spec ic tc); [contradiction|reflexivity]). }
  rewrite CK.
  assert (K : forall s c, exists out,
    (let! _ := raise_if (has_pre_trimming p && negb (in_columns (metric p) cols)) (KeyError (metric p)) in
     let! items := experiment_items sh (set_salt d s) rows in
     let! _ := run_check "no_sample_ratio_mismatch" []
        (check_srm binom srm_threshold (map (fun i => (i, coinflip_call c i)) items)) in
     Ok (map (fun i => (i, coinflip_call c i)) items)) = Ok out).
  { intros s c.
    assert (X : has_pre_trimming p && negb (in_columns (metric p) cols) = false).
    { destruct W as [U|(w & -> & W1 & W2)].
      - now rewrite (proj2 (has_pre_trimming_iff p d M) U).
      - rewrite (INC _ W2). apply andb_false_r. }
    rewrite X. cbn [raise_if bind].
    assert (Y : exists items, experiment_items sh (set_salt d s) rows = Ok items).
    { unfold experiment_items. destruct (has_pre_trimming (par (set_salt d s))); [|eauto].
      cbn [par set_salt top bottom]. rewrite P. set (l := pretest_items _ rows).
      assert (LL : (List.length l <= List.length rows)%nat).
      { destruct (pretest_items_totals (set_salt d s) rows) as (ND & IN & _). fold l in ND, IN.
        rewrite <- (map_length fst). rewrite <- (map_length h_item rows).
        apply NoDup_incl_length; auto. intros i Hi. apply IN in Hi as (r & Hr & <- & _). now apply in_map. }
      destruct (proj2 (c36_succeeds_iff_percentiles_valid snd (top p) (bottom p) sh l ltac:(lia))) as (k & ->).
      - apply mk_design_iff in M as [[] _]. tauto.
      - eexists. reflexivity. }
    destruct Y as (items & ->). cbn [bind]. unfold check_srm.
    destruct (HB (arm_count 1 (map (fun i => (i, coinflip_call c i)) items))
      (arm_count 1 (map (fun i => (i, coinflip_call c i)) items) + arm_count 0 (map (fun i => (i, coinflip_call c i)) items)))
      as (x & -> & Hx). cbn [bind]. rewrite Hx. eexists. reflexivity. }
  assert (SD : forall s, salt p = Some s -> d = set_salt d (Some s)).
  { intros s E. destruct d as [q a b]. simpl in P. subst q. destruct p. simpl in *. subst. reflexivity. }
  destruct (proj2 (c06_random_salt_accepted_iff_nonempty bytes) NB) as (c & Ec).
  destruct (salt p) as [s|] eqn:ES.
  - destruct (String.eqb_spec s "") as [->|NE].
    + rewrite Ec. cbn [bind]. destruct (K (Some (cf_salt c)) c) as (out & Eo). eexists. exists out. now rewrite Eo.
    + assert (MK : mk_coinflip s = Ok (mkCoinflipRec s)) by (destruct s; [congruence|reflexivity]).
      rewrite MK. cbn [bind]. destruct (K (Some s) (mkCoinflipRec s)) as (out & Eo). exists d, out.
      rewrite <- (SD s eq_refl) in Eo. now rewrite Eo.
  - rewrite Ec. cbn [bind]. destruct (K (Some (cf_salt c)) c) as (out & Eo). eexists. exists out. now rewrite Eo.
Qed.

Example c37_example :
  let rows := [mkH "a" 1 (Fin 3); mkH "b" 1 (Fin 1); mkH "a" 2 (Fin 2)] in
  exists d' out, perform_treatment_assignment (fun _ _ => Ok (Fin 1)) ["item"; "week"; "clicks"] "item" (Some "week")
    "arm" (fun n => seq 0 n) [7%N] ex_design rows = (d', Ok out) /\ ~ untrimmed ex_params.
Proof.
  cbv zeta. destruct (c37_fails_only_on_sample_ratio_mismatch (fun _ _ => Ok (Fin 1)) ["item"; "week"; "clicks"] "item"
    (Some "week") "arm" (fun n => seq 0 n) [7%N] ex_params ex_design
    [mkH "a" 1 (Fin 3); mkH "b" 1 (Fin 1); mkH "a" 2 (Fin 2)]) as (d' & out & E).
  - apply c01_accepts.
  - cbn [List.length]. lia.
  - left. reflexivity.
  - discriminate.
  - discriminate.
  - right. exists "week". simpl. tauto.
  - intros k n. exists (Fin 1). split; auto. apply Checks_Proofs.one_above_threshold.
  - exists d', out. split; [exact E|]. intros U. apply (has_pre_trimming_iff _ _ c01_accepts) in U.
    assert (has_pre_trimming ex_params = true) by (vm_compute; reflexivity). congruence.
Qed.

(* ------------------------------------------------------------------ *)
(** C38. *)
Lemma card_list {A} (l : list A) : NoDup l -> has_card (fun x => In x l) (List.length l).
Proof. intros H. exists l. split; auto. split; auto. tauto. Qed.

Lemma assigned_count binom cols ic wc tc sh bytes p d rows d' out n :
  mk_design p = Ok d -> shuffles sh ->
  (forall r, In r rows -> h_metric r <> PInf /\ h_metric r <> NInf) ->
  Z.of_nat (List.length rows) < 2 ^ 53 ->
  has_card (fun i => In i (map h_item rows)) n -> Z.of_nat n = n_before p ->
  (untrimmed p \/ forall i, In i (map h_item rows) -> exists r, In r rows /\ h_item r = i /\
      recent (pretest p) (map h_week rows) (h_week r)) ->
  perform_treatment_assignment binom cols ic wc tc sh bytes d rows = (d', Ok out) ->
  NoDup (map fst out) /\ Z.of_nat (List.length out) = n_pre d.
Proof.
  intros M SH FM L HC HN W H.
  assert (NP : n_pre d = n_before p - trim_count (top p) (n_before p) - trim_count (bottom p) (n_before p)) by apply (c02_derived_counts p d M).
  assert (D : untrimmed p \/ ~ untrimmed p).
  { destruct (has_pre_trimming p) eqn:E; [right|left; now apply (has_pre_trimming_iff p d M)].
    intros U. apply (has_pre_trimming_iff p d M) in U. congruence. }
  destruct D as [U|U].
  - destruct (c37_without_trimming_all_items_once _ _ _ _ _ _ _ _ _ _ _ _ M U H) as [ND IN]. split; auto.
    assert (HL : List.length out = n).
    { rewrite <- (map_length fst). apply (has_card_unique (fun i => In i (map h_item rows))); auto.
      apply (has_card_ext (fun i => In i (map fst out))); [intros i; apply IN|]. now apply card_list. }
    destruct U as [U1 U2]. rewrite NP, HL, HN. unfold trim_count. rewrite U1, U2, !Rmult_0_l, rnd_0, (Zfloor_IZR 0). lia.
  - destruct W as [W|W]; [contradiction|].
    destruct (c37_with_trimming_items_between_the_extremes _ _ _ _ _ _ _ _ _ _ _ _ M U SH FM L H) as (totals & kept & PT & (_ & HL) & E & ND).
    split; auto. rewrite <- (map_length fst), E, map_length, HL, NP.
    assert (HT : List.length totals = n).
    { destruct PT as (NDT & INT & _).
      rewrite <- (map_length fst). apply (has_card_unique (fun i => In i (map h_item rows))); auto.
      apply (has_card_ext (fun i => In i (map fst totals))); [|now apply card_list].
      intros i. rewrite INT. split; [|apply W]. intros (r & Hr & <- & _). now apply in_map. }
    now rewrite HT, HN.
Qed.

(** rows of the experiment data: the assigned items with their arms, any number of rows each *)
Theorem c38_assigned_items_pass_validation binom cols ic wc tc sh bytes p d rows d' out n exp st path :
  mk_design p = Ok d -> shuffles sh ->
  (forall r, In r rows -> h_metric r <> PInf /\ h_metric r <> NInf) ->
  Z.of_nat (List.length rows) < 2 ^ 53 ->
  has_card (fun i => In i (map h_item rows)) n -> Z.of_nat n = n_before p ->
  (untrimmed p \/ forall i, In i (map h_item rows) -> exists r, In r rows /\ h_item r = i /\
      recent (pretest p) (map h_week rows) (h_week r)) ->
  perform_treatment_assignment binom cols ic wc tc sh bytes d rows = (d', Ok out) ->
  (forall x, In x exp <-> In x out) ->
  load_from_yaml (write_to_yaml st path d') path = Ok d' /\
  check_n_items (map fst exp) d' = Ok false /\
  check_unique_arm exp = Ok false /\
  check_coinflip exp d' = Ok false /\
  run_check "no_sample_ratio_mismatch" [] (check_srm binom srm_threshold exp) = Ok tt.
Proof.
  intros M SH FM L HC HN W H X.
  destruct (pta_ok _ _ _ _ _ _ _ _ _ _ _ H) as (s & A1 & A2 & A3 & _).
  destruct (c37_arms_are_coinflips_of_the_stored_salt _ _ _ _ _ _ _ _ _ _ _ H) as (s' & B1 & B2 & _ & B4).
  assert (s' = s) by (rewrite B1 in A1; cbn in A1; congruence). subst s'.
  destruct (assigned_count _ _ _ _ _ _ _ _ _ _ _ _ _ M SH FM L HC HN W H) as [ND LN].
  assert (CF : check_coinflip exp d' = Ok false).
  { apply (c30_coinflip_iff exp d' s A1 A2). intros i a Hi. apply B4. now apply X. }
  split; [rewrite A3; now apply (c03_yaml_round_trip p)|]. split; [|split; [|split]]; auto.
  - apply (c30_number_of_items_iff (map fst exp) d' (List.length out)).
    + apply (has_card_ext (fun i => In i (map fst out))).
      * intros i. rewrite !in_map_iff. split; intros (x & E & Hx); exists x; split; auto; now apply X.
      * rewrite <- (map_length fst). now apply card_list.
    + rewrite A3. exact LN.
  - eapply c30_coinflip_implies_unique_arm; eauto.
  - assert (SR : run_check "no_sample_ratio_mismatch" [] (check_srm binom srm_threshold out) = Ok tt).
    { clear - H. unfold perform_treatment_assignment in H. cbv zeta in H.
      destruct (let! _ := raise_if _ _ in _) as [u|e]; [|discriminate].
      match type of H with (match ?X with Ok _ => _ | Err _ => _ end) = _ => destruct X as [[d1 c]|e]; [|discriminate] end.
      inversion H as [[H1 H2]]. clear H. subst d1.
      apply bind_ok in H2 as ([] & _ & H2). apply bind_ok in H2 as (items & E & H2).
      apply bind_ok in H2 as ([] & R & H2). inversion H2; subst out. exact R. }
    rewrite <- SR. f_equal. apply c31_duplicated_rows_do_not_matter. exact X.
Qed.

Fixpoint name (k : nat) : string := match k with O => "i" | S k => append "i" (name k) end.
Lemma name_length k : String.length (name k) = S k.
Proof. induction k; simpl; congruence. Qed.
Lemma name_inj j k : name j = name k -> j = k.
Proof. intros H. apply (f_equal String.length) in H. rewrite !name_length in H. congruence. Qed.

Definition names_at (w : nat -> Z) (n : nat) : list hrow := map (fun k => mkH (name k) (w k) (Fin 1)) (seq 0 n).
Lemma names_items w n : map h_item (names_at w n) = map name (seq 0 n).
Proof. unfold names_at. now rewrite map_map. Qed.
Lemma names_weeks w n : map h_week (names_at w n) = map w (seq 0 n).
Proof. unfold names_at. now rewrite map_map. Qed.
Lemma names_card w n : has_card (fun i => In i (map h_item (names_at w n))) n.
Proof.
  rewrite names_items. exists (map name (seq 0 n)). split; [|split; [now rewrite map_length, seq_length|tauto]].
  apply FinFun.Injective_map_NoDup; [intros a b; apply name_inj|apply seq_NoDup].
Qed.
Lemma names_len w n : List.length (names_at w n) = n.
Proof. unfold names_at. now rewrite map_length, seq_length. Qed.
Lemma names_fin w n r : In r (names_at w n) -> h_metric r <> PInf /\ h_metric r <> NInf.
Proof. intros H. apply in_map_iff in H as (k & <- & _). split; discriminate. Qed.

Definition fair (k n : Z) : result num := Ok (Fin 1).
Lemma ex_trimmed : ~ untrimmed ex_params.
Proof.
  intros U. apply (has_pre_trimming_iff _ _ c01_accepts) in U.
  assert (has_pre_trimming ex_params = true) by (vm_compute; reflexivity). congruence.
Qed.
Lemma ex_call w n : Z.of_nat n = 1000 -> exists d' out, perform_treatment_assignment fair ["item"; "week"; "clicks"] "item" (Some "week") "arm"
    (fun n => seq 0 n) [7%N] ex_design (names_at w n) = (d', Ok out).
Proof.
  intros HN.
  apply (c37_fails_only_on_sample_ratio_mismatch fair _ _ _ _ _ _ ex_params).
  - apply c01_accepts.
  - rewrite names_len. lia.
  - now left.
  - discriminate.
  - discriminate.
  - right. exists "week". simpl. tauto.
  - intros k m. exists (Fin 1). split; auto. apply Checks_Proofs.one_above_threshold.
Qed.

Example c38_example n : Z.of_nat n = 1000 -> (* 1000 items with a row in the last week *)
  exists d' out, perform_treatment_assignment fair ["item"; "week"; "clicks"] "item" (Some "week") "arm"
    (fun n => seq 0 n) [7%N] ex_design (names_at (fun _ => 1) n) = (d', Ok out) /\
  check_n_items (map fst out) d' = Ok false /\ Z.of_nat (List.length out) = 850.
Proof.
  intros HN. destruct (ex_call (fun _ => 1) n HN) as (d' & out & E). exists d', out. split; auto.
  set (rows := names_at (fun _ => 1) n) in *.
  assert (SH : shuffles (fun n => seq 0 n)) by (intros m; reflexivity).
  assert (L : Z.of_nat (List.length rows) < 2 ^ 53) by (unfold rows; rewrite names_len; lia).
  assert (W : untrimmed ex_params \/ forall i, In i (map h_item rows) -> exists r, In r rows /\ h_item r = i /\
      recent (pretest ex_params) (map h_week rows) (h_week r)).
  { right. intros i Hi. apply in_map_iff in Hi as (r & <- & Hr). exists r. split; auto. split; auto.
    exists 1. apply in_map_iff in Hr as (k & <- & Hk). unfold rows. rewrite names_weeks. cbn [h_week]. split; [|split].
    - apply in_map_iff. exists k. split; [reflexivity|exact Hk].
    - intros x Hx. apply in_map_iff in Hx as (j & <- & _). lia.
    - simpl. lia. }
  split.
  - apply (c38_assigned_items_pass_validation fair _ _ _ _ _ _ ex_params _ rows d' out n out [] "path" c01_accepts SH (names_fin _ _) L
      (names_card _ n) HN W E). tauto.
  - assert (A := proj2 (assigned_count _ _ _ _ _ _ _ ex_params _ rows d' out n c01_accepts SH (names_fin _ _) L
      (names_card _ n) HN W E)). exact A.
Qed.

(** items without a row in the last pretest weeks are lost, so the item count can be wrong
    although the historical data had n_items_before_trimming items *)
Theorem c38_all_items_recent_needed_refuted :
  exists cols ic wc tc sh bytes p d rows d' out, mk_design p = Ok d /\ shuffles sh /\
    has_card (fun i => In i (map h_item rows)) (Z.to_nat (n_before p)) /\
    perform_treatment_assignment fair cols ic wc tc sh bytes d rows = (d', Ok out) /\
    check_n_items (map fst out) d' = Ok true.
Proof.
  set (w := fun k : nat => if Nat.eqb k 0 then 100 else 1).
  set (n := Z.to_nat 1000). assert (HN : Z.of_nat n = 1000) by (unfold n; apply Z2Nat.id; lia).
  assert (HN' : Z.to_nat (n_before ex_params) = n) by reflexivity. clearbody n.
  destruct (ex_call w n HN) as (d' & out & E).
  exists ["item"; "week"; "clicks"], "item", (Some "week"), "arm", (fun n => seq 0 n), [7%N], ex_params, ex_design,
    (names_at w n), d', out.
  split; [apply c01_accepts|]. split; [intros m; reflexivity|]. split; [rewrite HN'; apply names_card|]. split; auto.
  set (rows := names_at w n) in *.
  assert (SH : shuffles (fun n => seq 0 n)) by (intros m; reflexivity).
  assert (L : Z.of_nat (List.length rows) < 2 ^ 53) by (unfold rows; rewrite names_len; lia).
  destruct (c37_with_trimming_items_between_the_extremes _ _ _ _ _ _ _ _ _ _ _ _ c01_accepts ex_trimmed SH (names_fin _ _) L E)
    as (totals & kept & (NDT & INT & _) & ((SB & _) & _) & EK & ND).
  assert (LT : (List.length (map fst out) <= 1)%nat).
  { change 1%nat with (List.length ["i"]). apply NoDup_incl_length; auto. intros i Hi. rewrite EK in Hi.
    apply (subseq_map fst) in SB. apply (subseq_In _ _ _ SB) in Hi. apply INT in Hi as (r & Hr & <- & m & M1 & M2 & M3).
    unfold rows in *. rewrite names_weeks in M1, M2. apply in_map_iff in Hr as (k & <- & Hk). cbn [h_week h_item] in *.
    assert (100 <= m). { apply M2. apply in_map_iff. exists 0%nat. split; auto. apply in_seq. lia. }
    unfold w in M3. destruct (Nat.eqb_spec k 0) as [->|]; [now left|]. simpl in M3. lia. }
  destruct (pta_ok _ _ _ _ _ _ _ _ _ _ _ E) as (s & _ & _ & A3 & _). unfold check_n_items. f_equal. rewrite A3.
  rewrite (dedup_id String.eqb String.eqb_eq) by auto. cbn [n_pre set_salt ex_design].
  destruct (Z.eqb_spec (Z.of_nat (List.length (map fst out))) 850); auto. lia.
Qed.

Print Assumptions c36_succeeds_iff_percentiles_valid.
Print Assumptions c36_removes_exactly_the_extremes.
Print Assumptions c36_kept_values_do_not_depend_on_tie_break.
Print Assumptions c36_nothing_to_trim_returns_the_data.
Print Assumptions c36_size_with_missing_values_refuted.
Print Assumptions c36_some_row_is_kept_refuted.
Print Assumptions c37_arms_are_coinflips_of_the_stored_salt.
Print Assumptions c37_without_trimming_all_items_once.
Print Assumptions c37_with_trimming_items_between_the_extremes.
Print Assumptions c37_second_call_reproduces_arms.
Print Assumptions c37_second_call_same_data.
Print Assumptions c37_failed_call_leaves_design_refuted.
Print Assumptions c37_fails_only_on_sample_ratio_mismatch.
Print Assumptions c38_assigned_items_pass_validation.
Print Assumptions c38_all_items_recent_needed_refuted.
