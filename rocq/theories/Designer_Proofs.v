(** Proofs about the designer's journey. *)
From Coq Require Import ZArith Reals List String Bool Lia Lra Permutation Sorting.
From Flocq Require Import Core BinarySingleNaN.
Require Import Verif.Base Verif.Num Verif.Frame Verif.F64 Verif.ListLib Verif.Design_Model
  Verif.Rows_Model Verif.Rows_Spec Verif.Rows_Proofs Verif.Rows_Props
  Verif.Checks_Model Verif.Checks_Spec Verif.Checks_Proofs Verif.Checks_Props
  Verif.Pipeline_Model Verif.Pipeline_Spec Verif.Pipeline_Proofs Verif.Pipeline_Props Verif.Designer_Spec.
Import ListNotations.
Open Scope string_scope.
Open Scope Z_scope.

(** *** The prepared rows form a grid *)
Definition grid (rows : list grow) : Prop :=
  forall g h, In g rows -> In h rows -> exists k, In k rows /\ g_item k = g_item g /\ g_week k = g_week h.

Lemma grouped_grid rows grouped :
  group_data_to_complete_weeks 1 (add_weeks None (fill_rows 1 rows)) = Ok grouped ->
  grid grouped /\ exists first, forall g, In g grouped -> g_start g = first + g_week g * week_ns.
Proof.
  intros HG. destruct rows as [|r0 rows0].
  { inversion HG; subst. split; [intros g h []|exists 0; intros g []]. }
  set (rows := r0 :: rows0) in *.
  destruct (zmin_date_spec rows) as (first & _ & HF); [discriminate|]. change (earliest rows first) in HF.
  assert (NE : fill_rows 1 rows <> []).
  { destruct HF as [H _]. apply (proj2 (fill_rows_seen 1 rows)) in H as (r & H & _).
    intros E. rewrite E in H. destruct H. }
  assert (AW : add_weeks None (fill_rows 1 rows) = add_weeks (Some first) (fill_rows 1 rows)).
  { destruct (c17_default_start_is_earliest_date _ NE) as (m & (r & Hr & Em) & Hm & E & _). rewrite E.
    apply (earliest_fill rows first 1) in HF as [(r' & Hr' & Er') HF].
    assert (m = first) as ->; [|reflexivity]. pose proof (Hm _ Hr'). pose proof (HF _ Hr). lia. }
  destruct (forallb (Z.eqb 1) (frequency (map (fun r => o_date (w_obs r)) (add_weeks None (fill_rows 1 rows))))) eqn:E1.
  - apply frequency_iff in E1.
    assert (HE : evenly_spaced 1 (map o_date rows)).
    { eapply evenly_spaced_ext; [|exact E1]. intros x. rewrite AW. cbn [add_weeks]. rewrite map_map. cbn [w_obs].
      rewrite !in_map_iff. pose proof (proj2 (fill_rows_seen 1 rows) x) as E. unfold seen_date in E.
      split.
      - intros (r & H1 & H2). destruct (proj1 E) as (r' & ? & ?); eauto.
      - intros (r & H1 & H2). destruct (proj2 E) as (r' & ? & ?); eauto. }
    destruct (historical_grouped rows first grouped HE HF HG) as [GI _]. split.
    + intros g h Hg Hh. apply GI in Hg as (S1 & _). apply GI in Hh as (_ & X1 & X2 & X3 & _).
      exists (mkG (g_week h) (first + g_week h * week_ns) (g_item g) [] [weekly_total rows first (g_item g) (g_week h)]).
      split; [apply GI; cbn; auto|auto].
    + exists first. intros g Hg. apply GI in Hg. tauto.
  - unfold group_data_to_complete_weeks in HG. rewrite E1 in HG. rewrite AW in HG.
    destruct (forallb (Z.eqb 7) _); [|discriminate].
    assert (EG : grouped = map drop_date (add_weeks (Some first) (fill_rows 1 rows))) by congruence. clear HG.
    assert (GI : forall g, In g grouped <-> exists o, In o (fill_rows 1 rows) /\
       g = mkG (week_id first (o_date o)) (week_start first (o_date o)) (o_item o) [] (o_vals o)).
    { intros g. rewrite EG. cbn [add_weeks]. rewrite map_map, in_map_iff. unfold drop_date. cbn [w_week w_start w_obs w_extra].
      split; intros (o & H1 & H2); exists o; auto. }
    split.
    + intros g h Hg Hh. apply GI in Hg as (o & Ho & ->). apply GI in Hh as (o' & Ho' & ->).
      apply fill_rows_In in Ho as (S1 & _). apply fill_rows_In in Ho' as (_ & S2 & _).
      destruct (fill_rows_pair 1 rows _ _ S1 S2) as (q & Q1 & Q2 & Q3).
      eexists. split; [apply GI; exists q; split; [exact Q1|reflexivity]|]. cbn. now rewrite Q2, Q3.
    + exists first. intros g Hg. apply GI in Hg as (o & _ & ->). cbn [g_start g_week]. apply week_start_eq.
Qed.

Local Lemma ok_inj {A} (a b : A) : Ok a = Ok b -> a = b.
Proof. now intros [=]. Qed.

(** sampling keeps or drops an item with all its rows *)
Lemma downsample_grid cols ic frac draw grouped out :
  downsample_items g_item cols ic frac draw grouped = Ok out ->
  (forall g, In g out -> In g grouped) /\ (grid grouped -> grid out).
Proof.
  unfold downsample_items. intros H. apply bind_ok in H as (? & _ & H). apply bind_ok in H as (? & _ & H).
  destruct (feqb frac f1); [assert (E : grouped = out) by congruence; subst; auto|].
  apply bind_ok in H as (s & _ & H). assert (E := ok_inj _ _ H). subst out. clear H. split.
  - intros g Hg. apply filter_In in Hg. tauto.
  - intros GR g h Hg Hh. apply filter_In in Hg as [Hg E], Hh as [Hh _].
    destruct (GR g h Hg Hh) as (k & K1 & K2 & K3). exists k. split; auto. apply filter_In. split; auto. now rewrite K2.
Qed.

Lemma exists_min (l : list Z) : l <> [] -> exists m, is_min m l.
Proof.
  destruct l as [|a l]; [congruence|]. intros _. revert a. induction l as [|b l IH]; intros a.
  - exists a. split; [now left|]. intros x [<-|[]]. lia.
  - destruct (IH (Z.min a b)) as (m & I & M). exists m. split.
    + destruct I as [E|I]; [|right; right; exact I]. destruct (Z.min_spec a b) as [[_ X]|[_ X]]; rewrite X in E; [left|right; left]; auto.
    + intros x Hx. assert (m <= Z.min a b) by (apply M; now left). destruct Hx as [<-|[<-|Hx]]; [lia|lia|]. apply M. now right.
Qed.
Lemma exists_max (l : list Z) : l <> [] -> exists m, is_max m l.
Proof.
  intros NE. destruct (exists_min (map Z.opp l)) as (m & I & M); [now destruct l|].
  apply in_map_iff in I as (a & E & I). exists a. split; [exact I|]. intros x Hx. assert (m <= - x) by (apply M; now apply in_map). lia.
Qed.

Lemma combine_maps {A B C} (f : A -> B) (g : A -> C) l : combine (map f l) (map g l) = map (fun x => (f x, g x)) l.
Proof. induction l; cbn; congruence. Qed.

Lemma one_of {A} (key : A -> string) (l : list A) i : NoDup (map key l) -> (exists x, In x l /\ key x = i) ->
  List.length (filter (fun x => String.eqb (key x) i) l) = 1%nat.
Proof.
  induction l as [|a l IH]; intros ND (x & Hx & E); [destruct Hx|]. inversion ND as [|? ? N1 N2]; subst. cbn [filter].
  destruct (String.eqb_spec (key a) (key x)) as [Ea|Na].
  - cbn [List.length]. f_equal. rewrite <- Ea.
    assert (X : filter (fun y => String.eqb (key y) (key a)) l = []); [|now rewrite X].
    clear - N1. induction l as [|b l IH]; auto. cbn [filter]. destruct (String.eqb_spec (key b) (key a)) as [E|_].
    + exfalso. apply N1. left. auto.
    + apply IH. intros H. apply N1. now right.
  - apply IH; auto. exists x. split; auto. destruct Hx as [->|Hx]; [congruence|auto].
Qed.

(** *** What a successful preparation returns *)
Lemma prepared_panel by_date frac draw pm column raw out :
  orders_by_date by_date ->
  prepare_historical by_date frac draw pm column [] raw = Ok out ->
  weekly_starts out /\ amounts out /\
  exists items lo hi, panel out items lo hi /\
    (exists g, In g out /\ g_week g = lo) /\ (exists g, In g out /\ g_week g = hi) /\
    (forall i, In i items -> exists g, In g out /\ g_item g = i).
Proof.
  intros HO H. apply prepare_historical_ok in H as (_ & NE & HV & grouped & HG & HS).
  destruct (grouped_grid raw grouped HG) as (GR & first & ST).
  destruct (downsample_grid _ _ _ _ _ _ HS) as (SUB & GRO). specialize (GRO GR).
  assert (STO : forall g, In g out -> g_start g = first + g_week g * week_ns) by (intros g Hg; apply ST; auto).
  set (v := historical_view column out) in *.
  assert (W1 : one_week_per_date (combine (v_weeks v) (v_dates v))).
  { unfold v. cbn [historical_view v_weeks v_dates]. rewrite combine_maps. intros a b Ha Hb E.
    apply in_map_iff in Ha as (g & <- & Hg), Hb as (h & <- & Hh). cbn [fst snd] in *.
    rewrite (STO g Hg), (STO h Hh) in E. unfold week_ns, day_ns in E. lia. }
  assert (RE : rectangular v).
  { unfold rectangular, v. cbn [historical_view v_weeks v_dates v_items]. rewrite !map_length. repeat split; auto.
    destruct out; [congruence|discriminate]. }
  assert (VC : v_col v column = Some (map (fun g => nth 0 (g_vals g) NaN) out)).
  { unfold v. cbn [historical_view v_col]. now rewrite String.eqb_refl. }
  assert (CO : Forall (fun c => snd c \/ In (fst c) []) (historical_conditions v column)).
  { apply (proj1 (c32_historical_validation_is_the_conjunction by_date v column [] HO RE W1 ltac:(rewrite VC; discriminate) ltac:(intros n [])) ). exact HV. }
  unfold historical_conditions in CO.
  inversion CO as [|? ? _ CO2]; subst. inversion CO2 as [|? ? [U|[]] CO3]; subst. inversion CO3 as [|? ? _ CO4]; subst.
  inversion CO4 as [|? ? [C|[]] CO5]; subst. inversion CO5 as [|? ? [F|[]] CO6]; subst. inversion CO6 as [|? ? [P|[]] _]; subst.
  clear CO CO2 CO3 CO4 CO5 CO6. cbn [snd] in U, C, F, P.
  unfold v in U, C. cbn [historical_view v_weeks v_dates v_items] in U, C. rewrite combine_maps in U. rewrite combine_maps in C.
  split; [|split].
  - intros g h Hg Hh. rewrite (STO g Hg), (STO h Hh). unfold week_ns, day_ns, day. lia.
  - intros g Hg. assert (I : In (nth 0 (g_vals g) NaN) (map (fun g => nth 0 (g_vals g) NaN) out)) by (apply in_map_iff; eauto).
    destruct (F _ _ VC I) as (r & E). exists r. split; [exact E|]. destruct (P _ _ VC I) as (_ & N). apply N. exact E.
  - destruct (exists_min (map g_week out)) as (lo & LI & LM); [now destruct out|].
    destruct (exists_max (map g_week out)) as (hi & HI & HM); [now destruct out|].
    exists (dedup String.eqb (map g_item out)), lo, hi.
    apply in_map_iff in LI as (gl & EL & IL), HI as (gh & EH & IH).
    assert (DI : forall i, In i (dedup String.eqb (map g_item out)) <-> exists g, In g out /\ g_item g = i).
    { intros i. rewrite (dedup_In _ String.eqb_eq), in_map_iff. split; intros (g & ? & ?); eauto. }
    split; [|split; [exists gl; auto|split; [exists gh; auto|intros i Hi; now apply DI]]].
    split; [|split; [apply dedup_NoDup, String.eqb_eq|split; [|split]]].
    + intros E. assert (X : In (g_item gl) (dedup String.eqb (map g_item out))) by (apply DI; eauto). rewrite E in X. destruct X.
    + rewrite <- EH. apply LM. now apply in_map.
    + intros g Hg. split; [apply DI; eauto|]. split; [apply LM|apply HM]; now apply in_map.
    + intros i w Hi Hw. apply DI in Hi as (gi & Hgi & <-).
      destruct (proj1 C (g_week gl, g_start gl) (g_week gh, g_start gh) w) as (r & Hr & Er).
      { apply in_map_iff. eauto. } { apply in_map_iff. eauto. } { cbn [fst]. lia. }
      apply in_map_iff in Hr as (gw & <- & Hgw). cbn [fst] in Er.
      destruct (GRO gi gw Hgi Hgw) as (k & K1 & K2 & K3).
      destruct U as (n & U). destruct (U (g_start k)) as (ND & _). { apply in_map_iff. exists (g_start k, g_item k). split; auto. apply in_map_iff. eauto. }
      assert (EI : items_on (g_start k) (map (fun x => (g_start x, g_item x)) out) = map g_item (filter (fun g => g_start g =? g_start k) out)).
      { unfold items_on. clear. induction out as [|a l IH]; auto. cbn [map filter fst]. destruct (_ =? _); cbn [map snd]; now rewrite IH. }
      rewrite EI in ND.
      assert (EF : filter (fun g => String.eqb (g_item g) (g_item gi) && (g_week g =? w))%bool out =
                   filter (fun g => String.eqb (g_item g) (g_item gi)) (filter (fun g => g_start g =? g_start k) out)).
      { assert (X : forall l, (forall g, In g l -> In g out) ->
           filter (fun g => String.eqb (g_item g) (g_item gi) && (g_week g =? w))%bool l =
           filter (fun g => String.eqb (g_item g) (g_item gi)) (filter (fun g => g_start g =? g_start k) l)); [|auto].
        induction l as [|a l IHl]; intros I; auto. cbn [filter].
        assert (EQ : (g_start a =? g_start k) = (g_week a =? w)).
        { rewrite (STO a (I a (or_introl eq_refl))), (STO k K1), K3, Er. unfold week_ns, day_ns.
          destruct (Z.eqb_spec (g_week a) w) as [->|N]; [apply Z.eqb_refl|]. apply Z.eqb_neq. lia. }
        rewrite EQ. destruct (g_week a =? w); cbn [filter]; rewrite ?andb_true_r, ?andb_false_r, IHl; auto; intros g Hg; apply I; now right. }
      rewrite EF. apply one_of; auto. exists k. split; [|exact K2]. apply filter_In. split; auto. apply Z.eqb_refl.
Qed.

(** *** A weekly panel of amounts passes the checks *)
Lemma one_by_key {A K} (key : A -> K) (P : A -> bool) (l : list A) : NoDup (map key l) ->
  (forall x y, In x l -> In y l -> P x = true -> P y = true -> key x = key y) -> (exists x, In x l /\ P x = true) ->
  List.length (filter P l) = 1%nat.
Proof.
  induction l as [|a l IH]; intros ND S (x & Hx & E); [destruct Hx|]. inversion ND as [|? ? N1 N2]; subst. cbn [filter].
  destruct (P a) eqn:Ea.
  - cbn [List.length]. f_equal.
    assert (X : forall y, In y l -> P y = false).
    { intros y Hy. destruct (P y) eqn:Ey; auto. exfalso. apply N1. rewrite (S a y); [now apply in_map|now left|now right|auto|auto]. }
    clear - X. induction l as [|b l IH]; auto. cbn [filter]. rewrite (X b (or_introl eq_refl)). apply IH. intros y Hy. apply X. now right.
  - destruct Hx as [->|Hx]; [congruence|]. apply IH; auto.
    + intros u v Hu Hv. apply S; now right.
    + eauto.
Qed.

Lemma count_items (l : list grow) i : count_occ string_dec (map g_item l) i = List.length (filter (fun g => String.eqb (g_item g) i) l).
Proof.
  induction l as [|a l IH]; auto. cbn [map count_occ filter]. destruct (string_dec (g_item a) i) as [E|N].
  - rewrite (proj2 (String.eqb_eq _ _) E). cbn [List.length]. now rewrite IH.
  - rewrite (proj2 (String.eqb_neq _ _) N). exact IH.
Qed.

Lemma panel_passes by_date column rows items lo hi :
  orders_by_date by_date -> weekly_starts rows -> amounts rows -> panel rows items lo hi ->
  validate_historical_data by_date (historical_view column rows) column [] = Ok tt.
Proof.
  intros HO HW HA (NI & ND & LH & B & ONE).
  set (v := historical_view column rows).
  assert (HAS : forall i w, In i items -> lo <= w <= hi -> exists g, In g rows /\ g_item g = i /\ g_week g = w).
  { intros i w Hi Hw. specialize (ONE i w Hi Hw). destruct (filter _ rows) as [|g l] eqn:E; [discriminate|]. exists g.
    assert (I : In g (g :: l)) by now left. rewrite <- E in I. apply filter_In in I as (I & X). apply andb_true_iff in X as [X1 X2].
    split; [exact I|]. split; [now apply String.eqb_eq|now apply Z.eqb_eq]. }
  assert (exists i0, In i0 items) as (i0 & Hi0). { destruct items as [|i l]; [congruence|]. exists i. now left. }
  assert (SW : forall g h, In g rows -> In h rows -> (g_start g = g_start h <-> g_week g = g_week h)).
  { intros g h Hg Hh. pose proof (HW g h Hg Hh) as E. unfold day in E. split; intros X; [|lia]. rewrite X in E. lia. }
  assert (W1 : one_week_per_date (combine (v_weeks v) (v_dates v))).
  { unfold v. cbn [historical_view v_weeks v_dates]. rewrite combine_maps. intros a b Ha Hb E.
    apply in_map_iff in Ha as (g & <- & Hg), Hb as (h & <- & Hh). cbn [fst snd] in *. now apply SW. }
  assert (NE : rows <> []). { destruct (HAS i0 lo Hi0 ltac:(lia)) as (g & Hg & _). intros E. rewrite E in Hg. destruct Hg. }
  assert (RE : rectangular v).
  { unfold rectangular, v. cbn [historical_view v_weeks v_dates v_items]. rewrite !map_length. repeat split; auto.
    destruct rows; [congruence|discriminate]. }
  assert (VC : v_col v column = Some (map (fun g => nth 0 (g_vals g) NaN) rows)).
  { unfold v. cbn [historical_view v_col]. now rewrite String.eqb_refl. }
  apply (proj1 (c32_historical_validation_is_the_conjunction by_date v column [] HO RE W1 ltac:(rewrite VC; discriminate) ltac:(intros n []))).
  unfold historical_conditions.
  assert (NOTM : forall z, ~ missing (CZ z)) by (intros z [X|X]; discriminate).
  constructor; [left; cbn [snd]|constructor; [left; cbn [snd]|constructor; [left; left|constructor; [left; cbn [snd]|constructor; [left; cbn [snd]|constructor; [left; cbn [snd]|constructor]]]]]].
  - intros col c Hcol Hc. unfold v in Hcol. cbn [historical_view v_cells In] in Hcol.
    destruct Hcol as [<-|[<-|[<-|[<-|[]]]]]; apply in_map_iff in Hc as (g & <- & Hg); auto.
    + intros [X|X]; discriminate.
    + destruct (HA g Hg) as (r & -> & _). intros [X|X]; discriminate.
  - unfold v. cbn [historical_view v_dates v_items]. rewrite combine_maps.
    exists (List.length items). intros d Hd. rewrite map_map in Hd. cbn [fst] in Hd. apply in_map_iff in Hd as (g0 & <- & Hg0).
    assert (EI : items_on (g_start g0) (map (fun x => (g_start x, g_item x)) rows) = map g_item (filter (fun g => g_week g =? g_week g0) rows)).
    { unfold items_on. assert (X : forall l, (forall g, In g l -> In g rows) ->
        map snd (filter (fun r => fst r =? g_start g0) (map (fun x => (g_start x, g_item x)) l)) = map g_item (filter (fun g => g_week g =? g_week g0) l)); [|auto].
      induction l as [|a l IH]; intros I; auto. cbn [map filter fst].
      assert (EQ : (g_start a =? g_start g0) = (g_week a =? g_week g0)).
      { pose proof (SW a g0 (I a (or_introl eq_refl)) Hg0) as X. destruct (Z.eqb_spec (g_week a) (g_week g0)); [apply Z.eqb_eq; tauto|apply Z.eqb_neq; tauto]. }
      assert (I' : forall g, In g l -> In g rows) by (intros g Hg; apply I; now right). specialize (IH I').
      rewrite EQ. destruct (g_week a =? g_week g0); [|exact IH]. cbn [map snd]. f_equal. exact IH. }
    rewrite EI.
    assert (CNT : forall i, List.length (filter (fun g => String.eqb (g_item g) i) (filter (fun g => g_week g =? g_week g0) rows)) =
                            List.length (filter (fun g => String.eqb (g_item g) i && (g_week g =? g_week g0))%bool rows)).
    { intros i. clear. induction rows as [|a l IH]; auto. cbn [filter].
      destruct (g_week a =? g_week g0), (String.eqb (g_item a) i) eqn:E; cbn [andb filter]; rewrite ?E; cbn [List.length]; auto. }
    assert (INI : forall i, In i (map g_item (filter (fun g => g_week g =? g_week g0) rows)) <-> In i items).
    { intros i. split.
      - intros H. apply in_map_iff in H as (g & <- & Hg). apply filter_In in Hg as [Hg _]. now apply B.
      - intros H. destruct (HAS i (g_week g0) H) as (g & Hg & <- & E); [now apply B|]. apply in_map. apply filter_In. split; auto. now apply Z.eqb_eq. }
    assert (NDI : NoDup (map g_item (filter (fun g => g_week g =? g_week g0) rows))).
    { apply (NoDup_count_occ string_dec). intros i. destruct (in_dec string_dec i items) as [I|N].
      - rewrite count_items, CNT, (ONE i (g_week g0) I); [lia|now apply B].
      - rewrite (proj1 (count_occ_not_In string_dec _ i)); [lia|]. rewrite INI. exact N. }
    split; [exact NDI|]. apply Nat.le_antisymm; apply NoDup_incl_length; auto; intros i; apply INI.
  - unfold v. cbn [historical_view v_dates]. intros a b Ha Hb Hab NB.
    apply in_map_iff in Ha as (g & <- & Hg), Hb as (h & <- & Hh). pose proof (HW g h Hg Hh) as E.
    assert (g_week g < g_week h) by (unfold day in E; lia).
    assert (g_week h = g_week g + 1) as X.
    { destruct (Z.eq_dec (g_week h) (g_week g + 1)) as [|N]; auto. exfalso.
      destruct (HAS i0 (g_week g + 1) Hi0) as (k & Hk & _ & Ek). { destruct (B g Hg), (B h Hh). lia. }
      apply (NB (g_start k)); [now apply in_map|]. pose proof (HW g k Hg Hk). pose proof (HW h k Hh Hk). unfold day in *. lia. }
    rewrite X in E. unfold day_ns. unfold day in E. lia.
  - unfold v. cbn [historical_view v_weeks v_dates]. rewrite combine_maps. split.
    + intros a b w Ha Hb Hw. apply in_map_iff in Ha as (g & <- & Hg), Hb as (h & <- & Hh). cbn [fst] in Hw.
      destruct (HAS i0 w Hi0) as (k & Hk & _ & Ek). { destruct (B g Hg), (B h Hh). lia. }
      exists (g_week k, g_start k). split; [apply in_map_iff; eauto|exact Ek].
    + intros a b Ha Hb Hab. apply in_map_iff in Ha as (g & <- & Hg), Hb as (h & <- & Hh). cbn [fst snd] in *.
      pose proof (HW g h Hg Hh) as E. unfold day in E. lia.
  - intros vals x E Hx. rewrite VC in E. assert (vals = map (fun g => nth 0 (g_vals g) NaN) rows) by congruence. subst vals.
    apply in_map_iff in Hx as (g & <- & Hg). destruct (HA g Hg) as (r & -> & _). now exists r.
  - intros vals x E Hx. rewrite VC in E. assert (vals = map (fun g => nth 0 (g_vals g) NaN) rows) by congruence. subst vals.
    apply in_map_iff in Hx as (g & <- & Hg). destruct (HA g Hg) as (r & -> & P). split; [discriminate|]. intros r' X. inversion X. now subst.
Qed.

(** *** Which raw data is accepted *)
Lemma total_amount raw (cond : obs -> bool) : raw_amounts raw -> exists x, total cond (fun r => nth 0 (o_vals r) NaN) raw = Fin x /\ (0 <= x)%R.
Proof.
  induction raw as [|r l IH]; intros H; cbn [total fold_right].
  - exists 0%R. split; [reflexivity|lra].
  - destruct IH as (x & E & P); [intros r' Hr'; apply H; now right|]. unfold total in E. rewrite E.
    destruct (H r (or_introl eq_refl)) as (v & -> & Hv). cbn [nth]. destruct (cond r).
    + destruct Hv as [->|(y & -> & Py)]; cbn [nadd]; eexists; split; try reflexivity; lra.
    + cbn [nadd]. eexists; split; [reflexivity|lra].
Qed.

Lemma regular_spacing k n dates : 0 < k -> regular_dates k n dates -> evenly_spaced k dates.
Proof.
  intros Hk (a & H) x y Hx Hy L NB. apply H in Hx as (i & Hi & ->), Hy as (j & Hj & ->). unfold day, day_ns in *.
  assert (j = i + 1) as ->.
  { assert (i < j) by nia. destruct (Z.eq_dec j (i + 1)) as [|N]; auto. exfalso. apply (NB (a + (i + 1) * (k * (24 * 3600 * 1000000000)))); [|nia].
    apply H. exists (i + 1). lia. }
  nia.
Qed.

Lemma regular_first k n raw : 0 < k -> raw <> [] -> regular_dates k n (map o_date raw) ->
  exists first, earliest raw first /\ 0 < n /\ forall x, seen_date raw x <-> exists i, 0 <= i < n /\ x = first + i * (k * day).
Proof.
  intros Hk NE (a & H). exists a.
  assert (S : forall x, seen_date raw x <-> exists i, 0 <= i < n /\ x = a + i * (k * day)).
  { intros x. rewrite <- H. unfold seen_date. rewrite in_map_iff. split; intros (r & ? & ?); eauto. }
  assert (0 < n). { destruct raw as [|r l]; [congruence|]. destruct (proj1 (H (o_date r))) as (i & ? & _); [now left|lia]. }
  split; [|split; [assumption|exact S]]. split.
  - apply S. exists 0. lia.
  - intros r Hr. destruct (proj1 (S (o_date r))) as (i & Hi & E); [exists r; auto|]. unfold day in E. nia.
Qed.

Lemma full_sample cols ic draw (rows : list grow) : in_columns ic cols = true -> downsample_items g_item cols ic f1 draw rows = Ok rows.
Proof.
  intros H. unfold downsample_items. rewrite H.
  assert (E1 : orb (fleb f1 f0) (fgtb f1 f1) = false) by (vm_compute; reflexivity).
  assert (E2 : feqb f1 f1 = true) by (vm_compute; reflexivity). rewrite E1, E2. reflexivity.
Qed.

Lemma prepare_ok by_date draw pm column raw grouped items lo hi :
  orders_by_date by_date -> In pm allowed_primary_metrics ->
  group_data_to_complete_weeks 1 (add_weeks None (fill_rows 1 raw)) = Ok grouped ->
  weekly_starts grouped -> amounts grouped -> panel grouped items lo hi ->
  prepare_historical by_date f1 draw pm column [] raw = Ok grouped.
Proof.
  intros HO PM HG W A P. unfold prepare_historical.
  rewrite (proj2 (existsb_eqb_In _ String.eqb_eq _ _) PM). cbn [negb raise_if bind].
  unfold fill_missing_rows_with_zeros.
  assert (E : negb (in_columns "item_id" ["item_id"; "date"; column] && in_columns "date" ["item_id"; "date"; column]) = false) by reflexivity.
  try rewrite E. cbn [raise_if bind]. rewrite HG. cbn [bind].
  rewrite (full_sample ["week_id"; "week_start"; "item_id"; column] "item_id" draw grouped) by reflexivity. cbn [bind].
  rewrite (panel_passes by_date column grouped items lo hi HO W A P). reflexivity.
Qed.

Lemma seen_items raw i : In i (dedup String.eqb (map o_item raw)) <-> seen_item raw i.
Proof.
  unfold seen_item. rewrite (dedup_In _ String.eqb_eq), in_map_iff. split; intros (r & ? & ?); eauto.
Qed.

Lemma daily_weeks raw first n : (forall x, seen_date raw x <-> exists i, 0 <= i < n /\ x = first + i * (1 * day)) ->
  forall w, complete_week raw first w <-> 0 <= w < n / 7.
Proof.
  intros S w. unfold complete_week, in_week.
  assert (IN : forall x, seen_date raw x /\ first + w * week_ns <= x < first + (w + 1) * week_ns <->
     exists j, 0 <= j < n /\ 7 * w <= j < 7 * w + 7 /\ x = first + j * day).
  { intros x. rewrite S. unfold week_ns, day. split.
    - intros ((j & Hj & ->) & A). exists j. nia.
    - intros (j & Hj & A & ->). split; [exists j; lia|]. lia. }
  split.
  - intros (l & ND & L & HX).
    assert (0 <= w).
    { destruct l as [|x l]; [discriminate|]. destruct (proj1 (IN x)) as (j & ? & ? & _); [apply HX; now left|]. lia. }
    assert (7 <= n - 7 * w); [|split; [lia|]; assert (w + 1 <= n / 7) by (apply Z.div_le_lower_bound; lia); lia].
    set (m := Z.to_nat (Z.max 0 (n - 7 * w))).
    assert (List.length l <= List.length (map (fun j => (first + (7 * w + Z.of_nat j) * day)%Z) (seq 0 m)))%nat.
    { apply NoDup_incl_length; auto. intros x Hx. apply HX, IN in Hx as (j & J1 & J2 & ->).
      apply in_map_iff. exists (Z.to_nat (j - 7 * w)). split; [f_equal; f_equal; lia|]. apply in_seq. lia. }
    rewrite map_length, seq_length in H0. lia.
  - intros [W0 W1]. assert (7 * w + 7 <= n) by (pose proof (Z.mul_div_le n 7 ltac:(lia)); lia).
    exists (map (fun j => first + (7 * w + Z.of_nat j) * day) (seq 0 7)). split; [|split].
    + apply FinFun.Injective_map_NoDup; [|apply seq_NoDup]. intros a b E. unfold day in E. lia.
    + now rewrite map_length, seq_length.
    + intros x. rewrite IN, in_map_iff. split.
      * intros (j & <- & Hj). apply in_seq in Hj. exists (7 * w + Z.of_nat j). lia.
      * intros (j & J1 & J2 & ->). exists (Z.to_nat (j - 7 * w)). split; [f_equal; f_equal; lia|]. apply in_seq. lia.
Qed.

Lemma daily_accepted by_date draw pm column raw n :
  orders_by_date by_date -> In pm allowed_primary_metrics -> raw_amounts raw -> raw <> [] ->
  regular_dates 1 n (map o_date raw) -> 7 <= n ->
  exists rows, prepare_historical by_date f1 draw pm column [] raw = Ok rows /\
    panel rows (dedup String.eqb (map o_item raw)) 0 (n / 7 - 1).
Proof.
  intros HO PM RA NE RD N7. assert (HE := regular_spacing 1 n _ ltac:(lia) RD).
  destruct (regular_first 1 n raw ltac:(lia) NE RD) as (first & HF & N0 & S). assert (CW := daily_weeks raw first n S).
  assert (exists grouped, group_data_to_complete_weeks 1 (add_weeks None (fill_rows 1 raw)) = Ok grouped) as (grouped & HG).
  { destruct (group_data_to_complete_weeks 1 (add_weeks None (fill_rows 1 raw))) as [gr|e] eqn:E; [eauto|]. exfalso.
    apply (proj1 (proj1 (c19_raises_iff_neither_daily_nor_weekly 1 (add_weeks None (fill_rows 1 raw))) (ex_intro _ e E))).
    eapply evenly_spaced_ext; [|exact HE]. intros x.
    assert (NEF : fill_rows 1 raw <> []).
    { destruct HF as [H _]. apply (proj2 (fill_rows_seen 1 raw)) in H as (r & H & _). intros E0. rewrite E0 in H. destruct H. }
    destruct (c17_default_start_is_earliest_date _ NEF) as (m & _ & _ & EW & _). rewrite EW. cbn [add_weeks]. rewrite map_map. cbn [w_obs].
    rewrite !in_map_iff. pose proof (proj2 (fill_rows_seen 1 raw) x) as X. unfold seen_date in X.
    split.
    - intros (r & H1 & H2). destruct (proj2 X) as (r' & ? & ?); eauto.
    - intros (r & H1 & H2). destruct (proj1 X) as (r' & ? & ?); eauto. }
  destruct (historical_grouped raw first grouped HE HF HG) as [GI ND].
  assert (P : panel grouped (dedup String.eqb (map o_item raw)) 0 (n / 7 - 1)).
  { assert (1 <= n / 7) by (apply Z.div_le_lower_bound; lia).
    split; [|split; [apply dedup_NoDup, String.eqb_eq|split; [lia|split]]].
    - destruct raw as [|r l]; [congruence|]. intros E. assert (X : In (o_item r) []); [|destruct X]. rewrite <- E. apply seen_items. exists r. split; [now left|auto].
    - intros g Hg. apply GI in Hg as (I1 & _ & _ & C & _). split; [now apply seen_items|]. apply CW in C. lia.
    - intros i w Hi Hw. apply seen_items in Hi. apply (one_by_key gkey); auto.
      + intros x y Hx Hy Px Py. apply andb_true_iff in Px as [P1 P2], Py as [P3 P4].
        apply String.eqb_eq in P1, P3. apply Z.eqb_eq in P2, P4. apply GI in Hx as (_ & X1 & X2 & _), Hy as (_ & Y1 & Y2 & _).
        unfold gkey. rewrite X1, X2, Y1, Y2. congruence.
      + exists (mkG w (first + w * week_ns) i [] [weekly_total raw first i w]). split.
        * apply GI. cbn. split; auto. split; auto. split; auto. split; auto. apply CW. lia.
        * cbn [g_item g_week]. now rewrite String.eqb_refl, Z.eqb_refl. }
  exists grouped. split; [|exact P]. apply (prepare_ok by_date draw pm column raw grouped _ _ _ HO PM HG) with (3 := P).
  - intros g h Hg Hh. apply GI in Hg as (_ & _ & -> & _), Hh as (_ & _ & -> & _). unfold week_ns, day. lia.
  - intros g Hg. apply GI in Hg as (_ & _ & _ & _ & ->). cbn [nth]. now apply total_amount.
Qed.

Lemma weekly_accepted by_date draw pm column raw n :
  orders_by_date by_date -> In pm allowed_primary_metrics -> raw_amounts raw -> raw <> [] ->
  regular_dates 7 n (map o_date raw) -> 2 <= n -> NoDup (map okey raw) ->
  exists rows, prepare_historical by_date f1 draw pm column [] raw = Ok rows /\
    panel rows (dedup String.eqb (map o_item raw)) 0 (n - 1).
Proof.
  intros HO PM RA NE RD N2 NDK. assert (HE := regular_spacing 7 n _ ltac:(lia) RD).
  destruct (regular_first 7 n raw ltac:(lia) NE RD) as (first & HF & N0 & S).
  assert (NEF : fill_rows 1 raw <> []).
  { destruct HF as [H _]. apply (proj2 (fill_rows_seen 1 raw)) in H as (r & H & _). intros E0. rewrite E0 in H. destruct H. }
  assert (AW : add_weeks None (fill_rows 1 raw) = add_weeks (Some first) (fill_rows 1 raw)).
  { destruct (c17_default_start_is_earliest_date _ NEF) as (m & (r & Hr & Em) & Hm & E & _). rewrite E.
    apply (earliest_fill raw first 1) in HF as [(r' & Hr' & Er') HF].
    assert (m = first) as ->; [|reflexivity]. pose proof (Hm _ Hr'). pose proof (HF _ Hr). lia. }
  assert (DT : forall x, In x (map (fun r => o_date (w_obs r)) (add_weeks None (fill_rows 1 raw))) <-> In x (map o_date raw)).
  { intros x. rewrite AW. cbn [add_weeks]. rewrite map_map. cbn [w_obs].
    rewrite !in_map_iff. pose proof (proj2 (fill_rows_seen 1 raw) x) as X. unfold seen_date in X.
    split.
    - intros (r & H1 & H2). destruct (proj1 X) as (r' & ? & ?); eauto.
    - intros (r & H1 & H2). destruct (proj2 X) as (r' & ? & ?); eauto. }
  set (mk := fun o => mkG (week_id first (o_date o)) (week_start first (o_date o)) (o_item o) [] (o_vals o)).
  set (grouped := map mk (fill_rows 1 raw)).
  assert (HG : group_data_to_complete_weeks 1 (add_weeks None (fill_rows 1 raw)) = Ok grouped).
  { unfold group_data_to_complete_weeks.
    destruct (forallb (Z.eqb 1) _) eqn:E1.
    - exfalso. apply frequency_iff in E1. assert (E1' : evenly_spaced 1 (map o_date raw)) by (eapply evenly_spaced_ext; [|exact E1]; intros x; rewrite DT; tauto).
      assert (SD : forall x, In x (map o_date raw) <-> exists i, 0 <= i < n /\ x = first + i * (7 * day)).
      { intros x. rewrite <- S. unfold seen_date. rewrite in_map_iff. split; intros (r & ? & ?); eauto. }
      assert (X : 1 * day_ns <= (first + 1 * (7 * day)) - (first + 0 * (7 * day)) < (1 + 1) * day_ns); [|unfold day, day_ns in X; lia].
      apply E1'.
      + apply SD. exists 0. lia.
      + apply SD. exists 1. lia.
      + unfold day. lia.
      + intros z Hz. apply SD in Hz as (i & Hi & ->). unfold day. nia.
    - rewrite (proj2 (frequency_iff 7 _)).
      + f_equal. rewrite AW. unfold grouped. cbn [add_weeks]. rewrite map_map. apply map_ext. intros o. reflexivity.
      + eapply evenly_spaced_ext; [|exact HE]. intros x. rewrite DT. tauto. }
  assert (WK : forall o, In o (fill_rows 1 raw) -> exists i, 0 <= i < n /\ o_date o = first + i * (7 * day) /\ week_id first (o_date o) = i).
  { intros o Ho. apply fill_rows_In in Ho as (_ & S1 & _). apply S in S1 as (i & Hi & E). exists i. split; [exact Hi|]. split; [exact E|].
    apply week_id_iff. unfold in_week. rewrite E. unfold week_ns, day. lia. }
  assert (NDF : NoDup (map okey (fill_rows 1 raw))).
  { destruct (c20_size_without_duplicates ["item_id"; "date"] "item_id" "date" 1 raw (fill_rows 1 raw) eq_refl NDK) as (its & dts & D1 & D2 & _ & _ & PE & _).
    apply (Permutation_NoDup (Permutation_sym PE)). clear - D1 D2.
    induction D1 as [|i l N D IH]; [constructor|]. cbn [list_prod]. apply NoDup_app'; auto.
    - apply FinFun.Injective_map_NoDup; auto. intros a b E. congruence.
    - intros [i' d'] H1 H2. apply in_map_iff in H1 as (d & E & _). apply in_prod_iff in H2 as [H2 _]. assert (i' = i) by congruence. subst. contradiction. }
  assert (P : panel grouped (dedup String.eqb (map o_item raw)) 0 (n - 1)).
  { split; [|split; [apply dedup_NoDup, String.eqb_eq|split; [lia|split]]].
    - destruct raw as [|r l]; [congruence|]. intros E. assert (X : In (o_item r) []); [|destruct X]. rewrite <- E. apply seen_items. exists r. split; [now left|auto].
    - intros g Hg. apply in_map_iff in Hg as (o & <- & Ho). destruct (WK o Ho) as (i & Hi & _ & E). cbn [mk g_item g_week]. rewrite E.
      split; [|lia]. apply seen_items. apply fill_rows_In in Ho. tauto.
    - intros i w Hi Hw. apply seen_items in Hi.
      assert (EF : List.length (filter (fun g => String.eqb (g_item g) i && (g_week g =? w))%bool grouped) =
                   List.length (filter (fun o => String.eqb (o_item o) i && (week_id first (o_date o) =? w))%bool (fill_rows 1 raw))).
      { unfold grouped. clear. induction (fill_rows 1 raw) as [|o l IH]; auto. cbn [map filter mk g_item g_week].
        destruct (andb _ _); cbn [List.length]; auto. }
      rewrite EF. apply (one_by_key okey); auto.
      + intros x y Hx Hy Px Py. apply andb_true_iff in Px as [P1 P2], Py as [P3 P4].
        apply String.eqb_eq in P1, P3. apply Z.eqb_eq in P2, P4.
        destruct (WK x Hx) as (ix & _ & X1 & X2), (WK y Hy) as (iy & _ & Y1 & Y2). unfold okey. rewrite X1, Y1. f_equal; congruence.
      + destruct (fill_rows_pair 1 raw i (first + w * (7 * day)) Hi) as (o & O1 & O2 & O3); [apply S; exists w; lia|].
        exists o. split; [exact O1|]. destruct (WK o O1) as (j & _ & J1 & J2). rewrite O2, String.eqb_refl. cbn [andb]. apply Z.eqb_eq.
        rewrite J2. rewrite O3 in J1. unfold day in J1. lia. }
  exists grouped. split; [|exact P]. apply (prepare_ok by_date draw pm column raw grouped _ _ _ HO PM HG) with (3 := P).
  - intros g h Hg Hh. apply in_map_iff in Hg as (o & <- & Ho), Hh as (o' & <- & Ho'). cbn [mk g_start g_week]. rewrite !week_start_eq. unfold week_ns, day. lia.
  - intros g Hg. apply in_map_iff in Hg as (o & <- & Ho). cbn [mk g_vals]. apply fill_rows_In in Ho as (_ & _ & [(r & Hr & _ & _ & ->)|(_ & ->)]).
    + destruct (RA r Hr) as (v & -> & [->|(x & -> & Px)]); cbn; eexists; split; try reflexivity; lra.
    + cbn. eexists; split; [reflexivity|lra].
Qed.
