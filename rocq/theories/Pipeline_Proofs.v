(** Lemmas about the preparation pipelines. *)
From Coq Require Import ZArith Reals List String Bool Lia Lra Permutation Sorting.Sorted.
From Flocq Require Import Core BinarySingleNaN.
Require Import Verif.Base Verif.Num Verif.Frame Verif.F64 Verif.ListLib Verif.Design_Model
  Verif.Rows_Model Verif.Rows_Spec Verif.Rows_Proofs Verif.Rows_Props
  Verif.Checks_Model Verif.Checks_Spec Verif.Checks_Proofs Verif.Checks_Props
  Verif.Periods_Model Verif.Pipeline_Model Verif.Pipeline_Spec.
Import ListNotations.
Open Scope string_scope.
Open Scope Z_scope.

Lemma run_all_ok skip l : run_all skip l = Ok tt ->
  forall n r, In (n, r) l -> exists b, r = Ok b /\ (b = false \/ In n skip).
Proof.
  induction l as [|[n0 r0] l IH]; [intros _ ? ? []|]. cbn [run_all]. intros H n r Hin.
  apply bind_ok in H as ([] & H1 & H). destruct Hin as [E|Hin]; [|eauto].
  inversion E; subst. destruct r as [b|e]; [|discriminate]. exists b. split; [reflexivity|].
  exact (proj1 (proj1 (c24_wrapped_check_raises_iff_failed_and_not_skipped _ _ _)) H1).
Qed.

Lemma fill_rows_In k rows r :
  In r (fill_rows k rows) <->
  seen_item rows (o_item r) /\ seen_date rows (o_date r) /\ value_or_zero k rows (o_item r) (o_date r) (o_vals r).
Proof.
  rewrite fill_rows_eq, in_flat_map. split.
  - intros ([i d] & Hc & Hr). pose proof (filled_key _ _ _ _ Hr) as E. inversion E; subst.
    apply in_prod_iff in Hc as [Hi Hd]. apply items_of_In in Hi. apply dates_of_In in Hd.
    split; [exact Hi|]. split; [exact Hd|]. unfold filled in Hr.
    destruct (filter (fun r0 => okeqb (okey r0) (o_item r, o_date r)) rows) as [|a l] eqn:EF.
    + destruct Hr as [<-|[]]. right. cbn [o_vals]. split; [|reflexivity].
      intros r0 H0 H1 H2. cbn [o_item o_date fst snd] in H1, H2.
      assert (X : In r0 (filter (fun r0 => okeqb (okey r0) (o_item r, o_date r)) rows)).
      { apply filter_In. split; auto. apply okeqb_eq. unfold okey. congruence. }
      rewrite EF in X. exact X.
    + left. apply in_map_iff in Hr as (r0 & E0 & H0).
      rewrite <- EF in H0. apply filter_In in H0 as [H0 K]. apply okeqb_eq in K. inversion K.
      exists r0. split; auto. split; [congruence|]. split; [congruence|]. rewrite <- E0. cbn [fill0 o_vals].
      apply map_ext. intros []; reflexivity.
  - intros (Hi & Hd & HV). exists (o_item r, o_date r). split.
    { apply in_prod_iff. split; [now apply items_of_In|now apply dates_of_In]. }
    unfold filled. destruct HV as [(r0 & H0 & H1 & H2 & H3)|[HN HV]].
    + assert (X : In r0 (filter (fun r0 => okeqb (okey r0) (o_item r, o_date r)) rows)).
      { apply filter_In. split; auto. apply okeqb_eq. unfold okey. congruence. }
      assert (Y : In r (map fill0 (filter (fun r0 => okeqb (okey r0) (o_item r, o_date r)) rows))).
      { apply in_map_iff. exists r0. split; auto. unfold fill0. destruct r as [i d v]. cbn in *. subst. f_equal.
        apply map_ext. intros []; reflexivity. }
      destruct (filter (fun r0 => okeqb (okey r0) (o_item r, o_date r)) rows) as [|a l]; [destruct X|exact Y].
    + destruct (filter (fun r0 => okeqb (okey r0) (o_item r, o_date r)) rows) as [|a l] eqn:EF.
      * left. cbn [fst snd]. rewrite <- HV. now destruct r.
      * exfalso. assert (X : In a (a :: l)) by now left. rewrite <- EF in X. apply filter_In in X as [X K].
        apply okeqb_eq in K. inversion K. eauto.
Qed.

Lemma fill_rows_seen k rows :
  (forall i, seen_item (fill_rows k rows) i <-> seen_item rows i) /\
  (forall d, seen_date (fill_rows k rows) d <-> seen_date rows d).
Proof.
  split; intros x.
  - unfold seen_item. rewrite <- !items_of_In, items_of_fill. reflexivity.
  - unfold seen_date. rewrite <- !dates_of_In, dates_of_fill. reflexivity.
Qed.

(** every observed pair has a row after filling *)
Lemma fill_rows_pair k rows i d : seen_item rows i -> seen_date rows d ->
  exists r, In r (fill_rows k rows) /\ o_item r = i /\ o_date r = d.
Proof.
  intros Hi Hd.
  destruct (existsb (fun r => String.eqb (o_item r) i && (o_date r =? d)) rows) eqn:E.
  - apply existsb_exists in E as (r & Hr & E). apply andb_true_iff in E as [E1 E2].
    apply String.eqb_eq in E1. apply Z.eqb_eq in E2. subst.
    exists (fill0 r). split; [|split; reflexivity]. apply fill_rows_In. cbn. split; auto. split; auto.
    left. exists r. split; auto. split; auto. split; auto. apply map_ext. intros []; reflexivity.
  - exists (mkObs i d (repeat (Fin 0) k)). split; [|split; reflexivity]. apply fill_rows_In. cbn.
    split; auto. split; auto. right. split; auto. intros r H1 H2 H3.
    apply (proj1 (existsb_false_iff _ _) E) in H1. rewrite H2, H3, String.eqb_refl, Z.eqb_refl in H1. discriminate.
Qed.

Lemma has_card_ext {A} (P Q : A -> Prop) n : (forall x, P x <-> Q x) -> has_card P n -> has_card Q n.
Proof. intros E (l & H1 & H2 & H3). exists l. split; auto. split; auto. intros x. now rewrite H3. Qed.

Lemma has_card_unique {A} (P : A -> Prop) n m : has_card P n -> has_card P m -> n = m.
Proof.
  intros (l & H1 & H2 & H3) (l' & H1' & H2' & H3'). subst.
  apply Nat.le_antisymm; apply NoDup_incl_length; auto; intros x Hx.
  - apply H3'. now apply H3.
  - apply H3. now apply H3'.
Qed.

Lemma total_map {A B} (f : A -> B) c v l : total c v (map f l) = total (fun x => c (f x)) (fun x => v (f x)) l.
Proof. unfold total. induction l; simpl; congruence. Qed.

Lemma total_ext_in {A} (c c' : A -> bool) v v' l :
  (forall x, In x l -> c x = c' x) -> (forall x, v x = v' x) -> total c v l = total c' v' l.
Proof.
  intros H1 H2. unfold total. induction l as [|a l IH]; cbn [fold_right]; auto.
  rewrite H1 by (now left). rewrite H2. f_equal. apply IH. intros. apply H1. now right.
Qed.

Lemma evenly_spaced_ext n l l' : (forall x, In x l <-> In x l') -> evenly_spaced n l -> evenly_spaced n l'.
Proof.
  unfold evenly_spaced. intros E H a b Ha Hb Hab Hc. apply H; auto; try (now apply E).
  intros c Hc'. apply Hc. now apply E.
Qed.

Lemma in_weekb first d w :
  (first + w * week_ns <=? d) && (d <? first + (w + 1) * week_ns) = true <-> in_week first d w.
Proof. unfold in_week. rewrite andb_true_iff, Z.leb_le, Z.ltb_lt. reflexivity. Qed.

Lemma earliest_fill rows first k : earliest rows first <-> earliest (fill_rows k rows) first.
Proof.
  unfold earliest. rewrite (proj2 (fill_rows_seen k rows)). split; intros [H1 H2]; (split; [exact H1|]); intros r Hr.
  - apply fill_rows_In in Hr as (_ & (r' & H3 & <-) & _). auto.
  - assert (S : seen_date (fill_rows k rows) (o_date r)).
    { apply (proj2 (fill_rows_seen k rows)). exists r. auto. }
    destruct S as (r' & H3 & <-). auto.
Qed.

(** the pipeline before sampling, on daily data *)
Lemma historical_grouped rows first grouped :
  evenly_spaced 1 (map o_date rows) -> earliest rows first ->
  group_data_to_complete_weeks 1 (add_weeks None (fill_rows 1 rows)) = Ok grouped ->
  (forall g, In g grouped <->
     seen_item rows (g_item g) /\ g_extra g = [] /\ g_start g = first + g_week g * week_ns /\
     complete_week rows first (g_week g) /\ g_vals g = [weekly_total rows first (g_item g) (g_week g)]) /\
  NoDup (map gkey grouped).
Proof.
  intros HE HF HG.
  assert (NE : fill_rows 1 rows <> []).
  { destruct HF as [H _]. apply (proj2 (fill_rows_seen 1 rows)) in H as (r & H & _).
    intros E. rewrite E in H. destruct H. }
  assert (AW : add_weeks None (fill_rows 1 rows) = add_weeks (Some first) (fill_rows 1 rows)).
  { destruct (c17_default_start_is_earliest_date _ NE) as (m & (r & Hr & Em) & Hm & E & _). rewrite E.
    apply (earliest_fill rows first 1) in HF as [(r' & Hr' & Er') HF].
    assert (m = first) as ->; [|reflexivity]. pose proof (Hm _ Hr'). pose proof (HF _ Hr). lia. }
  rewrite AW in HG. set (W := add_weeks (Some first) (fill_rows 1 rows)) in *.
  assert (HEW : evenly_spaced 1 (map (fun r => o_date (w_obs r)) W)).
  { eapply evenly_spaced_ext; [|exact HE]. intros x. unfold W. cbn [add_weeks]. rewrite map_map. cbn [w_obs].
    rewrite !in_map_iff. pose proof (proj2 (fill_rows_seen 1 rows) x) as E. unfold seen_date in E.
    split.
    - intros (r & H1 & H2). destruct (proj2 E) as (r' & ? & ?); eauto.
    - intros (r & H1 & H2). destruct (proj1 E) as (r' & ? & ?); eauto. }
  destruct (c18_daily_data_gives_complete_weeks_with_exact_totals 1 W grouped HEW HG) as (HI & ND & _).
  split; [|exact ND]. intros g. rewrite HI. clear HI.
  assert (INW : forall r, In r W <-> In (w_obs r) (fill_rows 1 rows) /\ in_week first (o_date (w_obs r)) (w_week r) /\
                 w_start r = first + w_week r * week_ns /\ w_extra r = []).
  { intros r. unfold W. cbn [add_weeks]. rewrite in_map_iff. split.
    - intros (r0 & <- & H0). cbn. split; auto. split; [now apply week_id_iff|]. split; [apply week_start_eq|reflexivity].
    - intros (H1 & H2 & H3 & H4). exists (w_obs r). split; auto. apply week_id_iff in H2.
      destruct r as [o w s e]. cbn in *. subst. f_equal. now rewrite week_start_eq. }
  assert (TOT : g_extra g = [] -> g_start g = first + g_week g * week_ns ->
     total (same_groupb g) (fun r => nth 0 (o_vals (w_obs r)) NaN) W = weekly_total rows first (g_item g) (g_week g)).
  { intros X1 X2. unfold weekly_total.
    assert (FM : fill_missing_rows_with_zeros ["item_id"; "date"] "item_id" "date" 1 rows = Ok (fill_rows 1 rows)) by reflexivity.
    rewrite <- (c21_totals_are_kept _ _ _ _ _ _ 0 (fun i d => String.eqb i (g_item g) &&
       ((first + g_week g * week_ns <=? d) && (d <? first + (g_week g + 1) * week_ns))) FM).
    unfold W. cbn [add_weeks]. rewrite total_map. cbn [w_obs]. apply total_ext_in; [|reflexivity].
    intros r _. apply eq_true_iff_eq. rewrite same_groupb_iff. unfold same_group. cbn [w_week w_start w_obs w_extra].
    rewrite andb_true_iff, in_weekb, String.eqb_eq, week_id_iff, week_start_eq. split; [tauto|].
    intros [E1 E2]. split; auto. pose proof (proj2 (week_id_iff _ _ _) E2) as E3. rewrite E3. auto. }
  split.
  - intros [HC HV].
    assert (exists r, In r W /\ same_group g r) as (r0 & H0 & H1 & H2 & H3 & H4).
    { destruct HC as ([|x l] & _ & L & HX); [discriminate|]. destruct (proj1 (HX x)) as (r & ? & ? & _); [now left|eauto]. }
    apply INW in H0 as (I1 & I2 & I3 & I4).
    assert (G1 : g_extra g = []) by congruence.
    assert (G2 : g_start g = first + g_week g * week_ns) by (rewrite <- H2, <- H1; exact I3).
    split. { rewrite <- H3. apply fill_rows_In in I1. tauto. }
    split; [exact G1|]. split; [exact G2|]. split.
    + eapply has_card_ext; [|exact HC]. intros d. cbv beta. split.
      * intros (r & A & (B1 & B2 & B3 & B4) & <-). apply INW in A as (A1 & A2 & _). rewrite B1 in A2. split; auto.
        apply fill_rows_In in A1. tauto.
      * intros [A B]. destruct (fill_rows_pair 1 rows (g_item g) d) as (o & O1 & O2 & O3).
        { rewrite <- H3. apply fill_rows_In in I1. tauto. }
        { exact A. }
        exists (mkW o (g_week g) (g_start g) []). split; [|split; [repeat split; cbn; auto|cbn; auto]].
        apply INW. cbn. rewrite O3. auto.
    + rewrite HV. cbn [seq map]. now rewrite TOT.
  - intros (S & G1 & G2 & HC & HV). split.
    + eapply has_card_ext; [|exact HC]. intros d. cbv beta. split.
      * intros [A B]. destruct (fill_rows_pair 1 rows (g_item g) d) as (o & O1 & O2 & O3); auto.
        exists (mkW o (g_week g) (g_start g) []). split; [|split; [repeat split; cbn; auto|cbn; auto]].
        apply INW. cbn. rewrite O3. auto.
      * intros (r & A & (B1 & B2 & B3 & B4) & <-). apply INW in A as (A1 & A2 & _). rewrite B1 in A2. split; auto.
        apply fill_rows_In in A1. tauto.
    + rewrite HV. cbn [seq map]. now rewrite TOT.
Qed.

Lemma ZnearestE_full n : Z.of_nat n <= 2 ^ 53 -> ZnearestE (rnd (1 * INR n)) = Z.of_nat n.
Proof.
  intros H. rewrite Rmult_1_l, INR_IZR_INZ, rnd_IZR by lia.
  apply (Zrnd_IZR (Znearest (fun x => negb (Z.even x)))).
Qed.
