(** Proofs about rows, weeks and weekly totals. *)
From Coq Require Import ZArith Reals List String Bool Lia Lra Permutation Sorting.Sorted.
From Flocq Require Import Core BinarySingleNaN.
Require Import Verif.Base Verif.Num Verif.F64 Verif.ListLib Verif.Rows_Model Verif.Rows_Spec.
Import ListNotations.
Open Scope string_scope.
Open Scope Z_scope.

Lemma day_eq : day = day_ns. Proof. reflexivity. Qed.
Lemma week_eq : week_ns = 7 * day. Proof. reflexivity. Qed.
Lemma day_pos : 0 < day. Proof. reflexivity. Qed.

Lemma week_id_iff start date k : week_id start date = k <-> in_week start date k.
Proof.
  unfold week_id, in_week. rewrite week_eq. pose proof day_pos as D.
  rewrite Z.div_div by lia. generalize dependent day. intros d D.
  pose proof (Z.div_mod (date - start) (d * 7)) as H. pose proof (Z.mod_pos_bound (date - start) (d * 7)) as B.
  split.
  - intros <-. split; nia.
  - intros [H1 H2]. apply Z.le_antisymm.
    + apply Z.lt_succ_r. apply Z.div_lt_upper_bound; nia.
    + apply Z.div_le_lower_bound; nia.
Qed.

Lemma week_start_eq start date : week_start start date = start + week_id start date * week_ns.
Proof. unfold week_start. rewrite week_eq. ring. Qed.

Lemma total_filter {R} (c : R -> bool) v rows :
  total c v rows = nsum (map (fun r => nan0 (v r)) (filter c rows)).
Proof.
  induction rows as [|r rows IH]; simpl; auto. unfold total in *. simpl. rewrite IH.
  destruct (c r); simpl.
  - f_equal. destruct (v r); reflexivity.
  - apply nadd_0_l.
Qed.

Lemma nsum_perm l1 l2 : Permutation l1 l2 -> nsum l1 = nsum l2.
Proof.
  induction 1; simpl; auto; try congruence.
  rewrite !nadd_assoc. now rewrite (nadd_comm y x).
Qed.

(** keys *)
Lemma okeqb_eq x y : okeqb x y = true <-> x = y.
Proof. unfold okeqb. apply (ord_eq _ _ (ord_pair _ _ _ _ ord_string ord_Z)). Qed.
Lemma gkeqb_eq x y : gkeqb x y = true <-> x = y.
Proof. apply (ord_eq _ _ ord_gkey). Qed.

Lemma items_of_In rows i : In i (items_of rows) <-> exists r, In r rows /\ o_item r = i.
Proof.
  unfold items_of. rewrite dedup_In by apply String.eqb_eq. rewrite in_map_iff.
  split; intros (r & H1 & H2); eauto.
Qed.
Lemma dates_of_In rows i : In i (dates_of rows) <-> exists r, In r rows /\ o_date r = i.
Proof.
  unfold dates_of. rewrite dedup_In by apply Z.eqb_eq. rewrite in_map_iff.
  split; intros (r & H1 & H2); eauto.
Qed.
Lemma items_of_NoDup rows : NoDup (items_of rows).
Proof. apply dedup_NoDup, String.eqb_eq. Qed.
Lemma dates_of_NoDup rows : NoDup (dates_of rows).
Proof. apply dedup_NoDup, Z.eqb_eq. Qed.

(** filling *)
Definition filled (k : nat) (rows : list obs) (c : string * Z) : list obs :=
  match filter (fun r => okeqb (okey r) c) rows with
  | [] => [mkObs (fst c) (snd c) (repeat (Fin 0) k)]
  | l => map fill0 l
  end.

Lemma map_nan0_repeat k : map nan0 (repeat NaN k) = repeat (Fin 0) k.
Proof. induction k as [|k IH]; simpl; [auto|]. now rewrite IH. Qed.

Lemma fill_rows_eq k rows :
  fill_rows k rows = flat_map (filled k rows) (list_prod (items_of rows) (dates_of rows)).
Proof.
  unfold fill_rows. rewrite !flat_map_concat_map, concat_map, map_map. f_equal.
  apply map_ext. intros c. unfold left_merge_one, filled.
  destruct (filter _ rows); auto. unfold fill0. simpl. now rewrite map_nan0_repeat.
Qed.

Lemma filled_key k rows c r : In r (filled k rows c) -> okey r = c.
Proof.
  unfold filled. destruct (filter _ rows) as [|a l] eqn:E.
  - intros [<-|[]]. now destruct c.
  - rewrite <- E. intros H. apply in_map_iff in H as (r' & <- & H).
    apply filter_In in H as [_ H]. now apply okeqb_eq in H.
Qed.

Lemma filled_nonempty k rows c : filled k rows c <> [].
Proof. unfold filled. destruct (filter _ rows); simpl; discriminate. Qed.

Lemma fill_rows_cell k rows i d :
  filter (fun r => okeqb (okey r) (i, d)) (fill_rows k rows) =
  if andb (existsb (String.eqb i) (items_of rows)) (existsb (Z.eqb d) (dates_of rows))
  then filled k rows (i, d) else [].
Proof.
  rewrite fill_rows_eq, (filter_flat_map_key okeqb okey).
  - assert (E : existsb (okeqb (i, d)) (list_prod (items_of rows) (dates_of rows)) =
                andb (existsb (String.eqb i) (items_of rows)) (existsb (Z.eqb d) (dates_of rows))).
    { apply eq_true_iff_eq. rewrite andb_true_iff.
      rewrite (existsb_eqb_In okeqb okeqb_eq), (existsb_eqb_In _ String.eqb_eq),
        (existsb_eqb_In _ Z.eqb_eq). apply in_prod_iff. }
    now rewrite E.
  - apply okeqb_eq.
  - intros; eapply filled_key; eauto.
  - apply NoDup_list_prod; [apply items_of_NoDup|apply dates_of_NoDup].
Qed.

Lemma items_of_fill k rows : items_of (fill_rows k rows) = items_of rows.
Proof.
  rewrite fill_rows_eq. destruct (dates_of rows) as [|d0 ds] eqn:ED.
  { destruct rows as [|r rows]; [reflexivity|]. unfold dates_of in ED. simpl in ED. discriminate. }
  assert (G : forall its, NoDup its ->
     items_of (flat_map (filled k rows) (list_prod its (d0 :: ds))) = its).
  2:{ apply G, items_of_NoDup. }
  induction its as [|i its IH]; intros Hn; [reflexivity|].
  inversion Hn as [|? ? Hi Hn']; subst. specialize (IH Hn'). cbn [list_prod].
  rewrite flat_map_app. unfold items_of in *. rewrite map_app.
  set (l1 := map o_item (flat_map (filled k rows) (map (fun y => (i, y)) (d0 :: ds)))).
  assert (H1 : forall x, In x l1 -> x = i).
  { intros x Hx. unfold l1 in Hx. apply in_map_iff in Hx as (r & <- & Hr).
    apply in_flat_map in Hr as (c & Hc & Hr). apply filled_key in Hr.
    apply in_map_iff in Hc as (d & <- & _). now inversion Hr. }
  assert (H2 : l1 <> []).
  { unfold l1. cbn [map flat_map]. pose proof (filled_nonempty k rows (i, d0)).
    destruct (filled k rows (i, d0)); [congruence|discriminate]. }
  rewrite (dedup_app _ String.eqb_eq), IH.
  assert (E1 : dedup String.eqb l1 = [i]).
  { clearbody l1. destruct l1 as [|x l]; [congruence|].
    assert (x = i) by (apply H1; now left). subst x. simpl. f_equal. apply filter_none.
    intros y Hy. apply (proj1 (dedup_In _ String.eqb_eq _ _)) in Hy.
    rewrite (H1 y) by now right. now rewrite String.eqb_refl. }
  rewrite E1. simpl. f_equal. apply filter_all. intros x Hx. apply negb_true_iff.
  destruct (existsb (String.eqb x) l1) eqn:X; auto.
  apply (proj1 (existsb_eqb_In _ String.eqb_eq _ _)) in X. apply H1 in X. subst. contradiction.
Qed.

Lemma dates_of_block k rows i ds : NoDup ds ->
  dates_of (flat_map (filled k rows) (map (fun y => (i, y)) ds)) = ds.
Proof.
  induction ds as [|d ds IH]; intros Hn; [reflexivity|].
  inversion Hn as [|? ? Hi Hn']; subst. specialize (IH Hn'). cbn [map flat_map].
  unfold dates_of in *. rewrite map_app.
  set (l1 := map o_date (filled k rows (i, d))).
  assert (H1 : forall x, In x l1 -> x = d).
  { intros x Hx. unfold l1 in Hx. apply in_map_iff in Hx as (r & <- & Hr).
    apply filled_key in Hr. now inversion Hr. }
  assert (H2 : l1 <> []).
  { unfold l1. pose proof (filled_nonempty k rows (i, d)).
    destruct (filled k rows (i, d)); [congruence|discriminate]. }
  rewrite (dedup_app _ Z.eqb_eq), IH.
  assert (E1 : dedup Z.eqb l1 = [d]).
  { clearbody l1. destruct l1 as [|x l]; [congruence|].
    assert (x = d) by (apply H1; now left). subst x. simpl. f_equal. apply filter_none.
    intros y Hy. apply (proj1 (dedup_In _ Z.eqb_eq _ _)) in Hy.
    rewrite (H1 y) by now right. now rewrite Z.eqb_refl. }
  rewrite E1. simpl. f_equal. apply filter_all. intros x Hx. apply negb_true_iff.
  destruct (existsb (Z.eqb x) l1) eqn:X; auto.
  apply (proj1 (existsb_eqb_In _ Z.eqb_eq _ _)) in X. apply H1 in X. subst. contradiction.
Qed.

Lemma dates_of_fill k rows : dates_of (fill_rows k rows) = dates_of rows.
Proof.
  rewrite fill_rows_eq. destruct (items_of rows) as [|i0 its] eqn:EI.
  { destruct rows as [|r rows]; [reflexivity|]. unfold items_of in EI. simpl in EI. discriminate. }
  cbn [list_prod]. rewrite flat_map_app.
  transitivity (dates_of (flat_map (filled k rows) (map (fun y => (i0, y)) (dates_of rows)))).
  - unfold dates_of at 1. rewrite map_app. rewrite (dedup_app_incl _ Z.eqb_eq); [reflexivity|].
    intros d Hd. apply in_map_iff in Hd as (r & <- & Hr). apply in_flat_map in Hr as (c & Hc & Hr).
    apply filled_key in Hr. destruct c as [i d]. inversion Hr; subst.
    apply in_prod_iff in Hc as [_ Hc].
    assert (In (o_date r) (dates_of (flat_map (filled k rows) (map (fun y => (i0, y)) (dates_of rows))))).
    { rewrite dates_of_block; auto. apply dates_of_NoDup. }
    apply dates_of_In in H as (r' & H & E). rewrite <- E. now apply in_map.
  - apply dates_of_block, dates_of_NoDup.
Qed.

Lemma nan0_idem x : nan0 (nan0 x) = nan0 x.
Proof. destruct x; reflexivity. Qed.
Lemma fill0_idem r : fill0 (fill0 r) = fill0 r.
Proof. unfold fill0. simpl. f_equal. rewrite map_map. apply map_ext. apply nan0_idem. Qed.

Lemma filled_fill0 k rows c : map fill0 (filled k rows c) = filled k rows c.
Proof.
  unfold filled. destruct (filter _ rows).
  - simpl. unfold fill0. simpl. f_equal. f_equal. induction k as [|k IH]; simpl; [auto|]. now rewrite IH.
  - rewrite map_map. apply map_ext. apply fill0_idem.
Qed.

Lemma fill_idem k rows : fill_rows k (fill_rows k rows) = fill_rows k rows.
Proof.
  rewrite (fill_rows_eq k (fill_rows k rows)), items_of_fill, dates_of_fill.
  rewrite (fill_rows_eq k rows) at 2. rewrite !flat_map_concat_map. f_equal.
  apply map_ext_in. intros [i d] Hc. apply in_prod_iff in Hc as [Hi Hd].
  unfold filled at 1. rewrite fill_rows_cell.
  rewrite (proj2 (existsb_eqb_In _ String.eqb_eq _ _) Hi), (proj2 (existsb_eqb_In _ Z.eqb_eq _ _) Hd).
  cbn [andb]. pose proof (filled_nonempty k rows (i, d)).
  destruct (filled k rows (i, d)) eqn:E; [congruence|]. rewrite <- E. apply filled_fill0.
Qed.

(** the output is the filled input plus the zero rows *)
Definition absent (rows : list obs) : list (string * Z) :=
  filter (fun c => negb (existsb (fun r => okeqb (okey r) c) rows)) (list_prod (items_of rows) (dates_of rows)).

Lemma filter_nil_existsb {A} (f : A -> bool) l : filter f l = [] <-> existsb f l = false.
Proof.
  induction l as [|a l IH]; simpl; [tauto|]. destruct (f a); simpl; [split; discriminate|auto].
Qed.

Lemma fill_rows_perm k rows :
  Permutation (fill_rows k rows)
    (map fill0 rows ++ map (fun c => mkObs (fst c) (snd c) (repeat (Fin 0) k)) (absent rows)).
Proof.
  rewrite fill_rows_eq.
  assert (P : Permutation (flat_map (group_of okeqb okey rows) (list_prod (items_of rows) (dates_of rows))) rows).
  { apply (groupby_partition_keys okeqb (lexb String.eqb sleb Z.leb) okey (ord_pair _ _ _ _ ord_string ord_Z)).
    - apply NoDup_list_prod; [apply items_of_NoDup|apply dates_of_NoDup].
    - intros r Hr. apply in_prod_iff. split; [apply items_of_In|apply dates_of_In]; eauto. }
  etransitivity; [|apply Permutation_app_tail, Permutation_map, P]. unfold absent. clear P.
  induction (list_prod (items_of rows) (dates_of rows)) as [|c cs IH]; simpl; auto.
  rewrite map_app. unfold filled at 1, group_of at 1.
  destruct (filter (fun r => okeqb (okey r) c) rows) as [|a l] eqn:E.
  - apply filter_nil_existsb in E. rewrite E. simpl.
    rewrite <- Permutation_middle. now constructor.
  - destruct (existsb (fun r => okeqb (okey r) c) rows) eqn:X.
    + cbn [negb]. rewrite <- app_assoc. now apply Permutation_app_head.
    + apply filter_nil_existsb in X. congruence.
Qed.

(** distinct count *)
Lemma dedup_card {A} (eqb : A -> A -> bool) (HE : forall x y, eqb x y = true <-> x = y) (l : list A) n :
  List.length (dedup eqb l) = n <-> has_card (fun x => In x l) n.
Proof.
  split.
  - intros H. exists (dedup eqb l). split; [now apply dedup_NoDup|]. split; auto.
    intros; now apply dedup_In.
  - intros (s & Hs & Hl & HI). rewrite (dedup_count eqb HE l s); auto.
Qed.

Lemma same_groupb_iff g r : same_groupb g r = true <-> same_group g r.
Proof.
  unfold same_groupb, same_group. rewrite !andb_true_iff, !Z.eqb_eq, String.eqb_eq.
  destruct (list_eq_dec string_dec (w_extra r) (g_extra g)); intuition congruence.
Qed.

Definition gkey (g : grow) : gkey_t := ((g_week g, g_start g), (g_item g, g_extra g)).

Lemma gkeqb_same g r : gkeqb (wkey r) (gkey g) = same_groupb g r.
Proof.
  apply eq_true_iff_eq. rewrite gkeqb_eq, same_groupb_iff. unfold wkey, gkey, same_group.
  split; [intros H; inversion H; auto|]. intros (-> & -> & -> & ->). reflexivity.
Qed.

Lemma group_weeks_In k rows g :
  In g (group_weeks k rows) <->
  has_card (fun d => exists r, In r rows /\ same_group g r /\ o_date (w_obs r) = d) 7 /\
  g_vals g = map (fun j => total (same_groupb g) (fun r => nth j (o_vals (w_obs r)) NaN) rows) (seq 0 k).
Proof.
  assert (S : forall g, sums k (map w_obs (group_of gkeqb wkey rows (gkey g))) =
     map (fun j => total (same_groupb g) (fun r => nth j (o_vals (w_obs r)) NaN) rows) (seq 0 k)).
  { intros g0. unfold sums. apply map_ext. intros j. rewrite total_filter. unfold col_sum.
    rewrite map_map. f_equal. f_equal. unfold group_of. apply filter_ext. intros r. apply gkeqb_same. }
  assert (C : forall g, Nat.eqb (distinct_dates (group_of gkeqb wkey rows (gkey g))) 7 = true <->
     has_card (fun d => exists r, In r rows /\ same_group g r /\ o_date (w_obs r) = d) 7).
  { intros g0. rewrite Nat.eqb_eq. unfold distinct_dates. rewrite (dedup_card Z.eqb Z.eqb_eq).
    assert (X : forall d, In d (map (fun r => o_date (w_obs r)) (group_of gkeqb wkey rows (gkey g0))) <->
       exists r, In r rows /\ same_group g0 r /\ o_date (w_obs r) = d).
    { intros d. rewrite in_map_iff. unfold group_of. split.
      - intros (r & <- & Hr). apply filter_In in Hr as [Hr Hk]. rewrite gkeqb_same, same_groupb_iff in Hk. eauto.
      - intros (r & Hr & Hs & <-). exists r. split; auto. apply filter_In. split; auto.
        rewrite gkeqb_same. now apply same_groupb_iff. }
    unfold has_card. split; intros (s & H1 & H2 & H3); exists s; split; auto; split; auto;
      intros d; rewrite H3; [apply X|symmetry; apply X]. }
  unfold group_weeks. rewrite in_map_iff. split.
  - intros ([[[w s] [i e]] rs] & E & H). apply filter_In in H as [H1 H2]. simpl in H2.
    unfold groupby in H1. apply in_map_iff in H1 as (kk & E1 & H1). inversion E1; subst; clear E1.
    change ((w, s), (i, e)) with (gkey (mkG w s i e (sums k (map w_obs (group_of gkeqb wkey rows ((w, s), (i, e))))))) in H2 at 1.
    apply C in H2. split; [exact H2|]. simpl g_vals.
    change ((w, s, (i, e))) with (gkey (mkG w s i e (sums k (map w_obs (group_of gkeqb wkey rows ((w, s), (i, e))))))) at 1.
    apply S.
  - intros [H1 H2]. exists (gkey g, group_of gkeqb wkey rows (gkey g)). split.
    + unfold gkey at 1. simpl. rewrite S, <- H2. now destruct g.
    + apply filter_In. split; [|simpl; now apply C].
      unfold groupby. apply in_map_iff. exists (gkey g). split; auto.
      apply (group_keys_In gkeqb gkleb wkey ord_gkey).
      destruct H1 as (l & _ & Hl & HI). destruct l as [|d l]; [discriminate|].
      destruct (proj1 (HI d)) as (r & Hr & Hs & _); [now left|].
      exists r. split; auto. apply gkeqb_eq. rewrite gkeqb_same. now apply same_groupb_iff.
Qed.

Lemma group_weeks_sorted k rows :
  StronglySorted (fun a b => gkleb a b = true /\ a <> b) (map gkey (group_weeks k rows)).
Proof.
  unfold group_weeks. rewrite map_map.
  rewrite (map_ext _ fst) by (intros [[[w s] [i e]] rs]; reflexivity).
  unfold groupby.
  assert (E : forall f l, map fst (filter (fun kg : gkey_t * list wrow => f (snd kg))
     (map (fun k0 => (k0, group_of gkeqb wkey rows k0)) l)) = filter (fun k0 => f (group_of gkeqb wkey rows k0)) l).
  { intros f l. induction l as [|a l IH]; simpl; auto. destruct (f _); simpl; congruence. }
  rewrite (E (fun rs => Nat.eqb (distinct_dates rs) 7)). apply StronglySorted_filter. apply group_keys_sorted. apply ord_gkey.
Qed.

(** gaps *)
Lemma gaps_forall (P : Z -> Prop) l :
  StronglySorted Z.lt l ->
  (Forall P (gaps l) <->
   forall a b, In a l -> In b l -> a < b -> (forall c, In c l -> ~ (a < c < b)) -> P ((b - a) / day)).
Proof.
  induction l as [|x l IH]; intros Hs.
  - simpl. split; [intros _ a b []|constructor].
  - inversion Hs as [|? ? Hs' Hf]; subst. specialize (IH Hs'). rewrite Forall_forall in Hf.
    destruct l as [|y l].
    + simpl. split; [|constructor]. intros _ a b [<-|[]] [<-|[]]. lia.
    + change (gaps (x :: y :: l)) with ((y - x) / day :: gaps (y :: l)). rewrite Forall_cons_iff, IH.
      assert (Hxy : x < y) by (apply Hf; now left).
      assert (Hy : forall c, In c (y :: l) -> y <= c).
      { inversion Hs' as [|? ? _ Hf']; subst. rewrite Forall_forall in Hf'. intros c [<-|Hc]; [lia|].
        apply Hf' in Hc. lia. }
      split.
      * intros [H1 H2] a b Ha Hb Hab Hno.
        destruct Ha as [<-|Ha].
        -- destruct Hb as [<-|Hb]; [lia|]. replace b with y; auto.
           apply Hy in Hb as Hb'. destruct (Z.eq_dec b y); auto. exfalso.
           apply (Hno y); [right; now left|lia].
        -- destruct Hb as [<-|Hb]; [apply Hf in Ha; lia|]. apply H2; auto.
           intros c Hc. apply Hno. now right.
      * intros H. split.
        -- apply H; auto; [now left|right; now left|]. intros c [<-|Hc]; [lia|]. apply Hy in Hc. lia.
        -- intros a b Ha Hb Hab Hno. apply H; auto; try (now right).
           intros c [<-|Hc]; [apply Hf in Ha; lia|]. auto.
Qed.

Lemma frequency_iff n dates :
  forallb (Z.eqb n) (frequency dates) = true <-> evenly_spaced n dates.
Proof.
  rewrite forallb_forall, <- Forall_forall. unfold frequency, evenly_spaced.
  rewrite gaps_forall by apply zsort_uniq_sorted.
  assert (D : forall a b, (n =? (b - a) / day) = true <-> n * day_ns <= b - a < (n + 1) * day_ns).
  { intros a b. rewrite Z.eqb_eq, <- day_eq. pose proof day_pos as HD. generalize dependent day. intros d HD.
    pose proof (Z.div_mod (b - a) d). pose proof (Z.mod_pos_bound (b - a) d). split.
    - intros ->. nia.
    - intros [H1 H2]. symmetry. apply Z.le_antisymm.
      + apply Z.lt_succ_r. apply Z.div_lt_upper_bound; nia.
      + apply Z.div_le_lower_bound; nia. }
  split; intros H a b Ha Hb Hab Hno.
  - apply D. apply H; auto; try (now apply zsort_uniq_In).
    intros c Hc. apply Hno. now apply (proj1 (zsort_uniq_In dates c)).
  - apply D. apply H; auto; try (now apply (proj1 (zsort_uniq_In dates _))).
    intros c Hc. apply Hno. now apply zsort_uniq_In.
Qed.
