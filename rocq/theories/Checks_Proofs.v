(** Lemmas about the validation checks. *)
From Coq Require Import ZArith Reals List String Bool Lia Lra Permutation Sorting.Sorted.
Require Import Verif.Base Verif.Num Verif.Frame Verif.F64 Verif.ListLib Verif.Design_Model
  Verif.Rows_Model Verif.Rows_Spec Verif.Rows_Proofs Verif.Checks_Model Verif.Checks_Spec.
Import ListNotations.
Open Scope string_scope.
Open Scope Z_scope.

(** a p-value of one is not below the threshold of the sample ratio check *)
Lemma one_above_threshold : nltb (Fin 1) srm_threshold = false.
Proof.
  unfold srm_threshold. apply nltb_fin_false.
  apply Rle_trans with (rnd 1); [apply rnd_le; lra|]. rewrite (rnd_IZR 1) by (simpl; lia). apply Rle_refl.
Qed.

(** a check that does not raise and passes exactly when [P] *)
Definition decides (r : result bool) (P : Prop) : Prop := exists b, r = Ok b /\ (b = false <-> P).

Lemma run_check_decides name skip r P : decides r P ->
  (run_check name skip r = Ok tt <-> P \/ In name skip) /\
  (run_check name skip r <> Ok tt -> run_check name skip r = Err (ValueError name) /\ ~ P /\ ~ In name skip).
Proof.
  intros (b & -> & Hb). unfold run_check. simpl. destruct b; simpl.
  - destruct (existsb (String.eqb name) skip) eqn:E.
    + apply (existsb_eqb_In _ String.eqb_eq) in E. split; [tauto|congruence].
    + assert (N : ~ In name skip) by (intros H; apply (existsb_eqb_In _ String.eqb_eq) in H; congruence).
      split; [split; [discriminate|intros [H|H]; [apply Hb in H; discriminate|contradiction]]|].
      intros _. split; auto. split; auto. intros H. apply Hb in H. discriminate.
  - split; [|congruence]. split; auto. intros _. left. now apply Hb.
Qed.

(** the sequence of checks of an entry point *)
Fixpoint run_all (skip : list string) (l : list (string * result bool)) : result unit :=
  match l with
  | [] => Ok tt
  | (n, r) :: l' => let! _ := run_check n skip r in run_all skip l'
  end.

Lemma run_all_decides skip l conds :
  Forall2 (fun nr nP => fst nr = fst nP /\ decides (snd nr) (snd nP)) l conds ->
  (run_all skip l = Ok tt <-> Forall (fun nP => snd nP \/ In (fst nP) skip) conds) /\
  (forall e, run_all skip l = Err e ->
     exists pre n P post, conds = (pre ++ (n, P) :: post)%list /\ e = ValueError n /\
       Forall (fun nP => snd nP \/ In (fst nP) skip) pre /\ ~ P /\ ~ In n skip).
Proof.
  induction 1 as [|[n r] [n' P] l conds [E D] F IH]; simpl in *.
  - split; [split; auto|discriminate].
  - subst n'. destruct (run_check_decides n skip r P D) as [R1 R2].
    destruct (run_check n skip r) as [[]|e'] eqn:ER; simpl.
    + destruct IH as [I1 I2]. assert (PP : P \/ In n skip) by tauto. split.
      * rewrite I1. split; [intros; constructor; auto|intros X; now inversion X].
      * intros e He. destruct (I2 e He) as (pre & n1 & P1 & post & E1 & E2 & E3 & E4).
        exists ((n, P) :: pre), n1, P1, post. subst conds. repeat split; try tauto. constructor; auto.
    + destruct R2 as (E2 & NP & NS); [congruence|]. inversion E2; subst. split.
      * split; [discriminate|]. intros X. inversion X; subst. simpl in *. tauto.
      * intros e He. inversion He; subst. exists [], n, P, conds. repeat split; auto.
Qed.

Lemma run_all_last skip n r : run_all skip [(n, r)] = run_check n skip r.
Proof. simpl. destruct (run_check n skip r) as [[]|]; reflexivity. Qed.

Local Opaque registered.
Lemma assert_all_exist_iff skip :
  (is_ok (assert_all_exist skip) <-> forall n, In n skip -> In n registered) /\
  (forall e, assert_all_exist skip = Err e -> exists n, In n skip /\ ~ In n registered /\ e = unknown_check n).
Proof.
  unfold assert_all_exist. induction skip as [|n skip IH]; simpl.
  - split; [split; [tauto|intros; eexists; reflexivity]|discriminate].
  - unfold assert_check_exists at 1 3. destruct (existsb (String.eqb n) registered) eqn:E; simpl.
    + apply (existsb_eqb_In _ String.eqb_eq) in E. destruct IH as [I1 I2]. split.
      * destruct (mapM assert_check_exists skip) as [us|e] eqn:EM.
        -- split; [intros _ x [<-|Hx]; auto; apply I1; auto; eexists; reflexivity|intros; eexists; reflexivity].
        -- split; [intros (? & ?); discriminate|]. intros H. exfalso.
           destruct (proj2 I1) as (? & ?); [auto|discriminate].
      * intros e. destruct (mapM assert_check_exists skip) as [us|e'] eqn:EM; [discriminate|].
        intros He. inversion He; subst. destruct (I2 e eq_refl) as (x & H1 & H2 & H3). eauto.
    + assert (N : ~ In n registered) by (intros H; apply (existsb_eqb_In _ String.eqb_eq) in H; congruence).
      split; [split; [intros (? & ?); discriminate|intros H; exfalso; apply N, H; now left]|].
      intros e He. inversion He; subst. eauto.
Qed.

(* ---------------- nulls ---------------- *)
Lemma null_cell_iff c : null_cell c = true <-> missing c.
Proof.
  unfold missing. destruct c as [| | |x]; simpl; try (split; [discriminate|intros [|]; discriminate]); [tauto|].
  destruct x; simpl; try (split; [discriminate|intros [H|H]; congruence]). tauto.
Qed.

Lemma no_nulls_decides cols :
  decides (check_no_nulls cols) (forall col c, In col cols -> In c col -> ~ missing c).
Proof.
  eexists. split; [reflexivity|]. rewrite existsb_false_iff. split.
  - intros H col c Hcol Hc M. apply null_cell_iff in M.
    assert (Hi : In c (filter null_cell col)) by (apply filter_In; auto).
    specialize (H (List.length (filter null_cell col) + List.length (filter null_cell col))%nat).
    rewrite Nat.ltb_ge in H. destruct (filter null_cell col) eqn:E; [destruct Hi|].
    simpl in H. specialize (H ltac:(apply in_map_iff; exists col; rewrite E; auto)). lia.
  - intros H n Hn. apply in_map_iff in Hn as (col & <- & Hcol). apply Nat.ltb_ge.
    rewrite (filter_none null_cell col); [simpl; lia|].
    intros c Hc. destruct (null_cell c) eqn:E; auto. apply null_cell_iff in E. destruct (H _ _ Hcol Hc E).
Qed.

(* ---------------- duplicates ---------------- *)
Lemma combine_map {A B C} (f : A -> B) (g : A -> C) l : combine (map f l) (map g l) = map (fun x => (f x, g x)) l.
Proof. induction l; simpl; congruence. Qed.

Lemma group_items rows k : map snd (group_of Z.eqb fst rows k) = items_on k rows.
Proof. reflexivity. Qed.

Lemma no_duplicates_decides rows : rows <> [] -> decides (check_no_duplicates rows) (uniform rows).
Proof.
  intros HN. unfold check_no_duplicates, groupby. rewrite !map_map, combine_map. cbn [snd fst].
  set (keys := group_keys Z.eqb Z.leb fst rows).
  assert (HK : forall k, In k keys <-> In k (map fst rows)).
  { intros k. unfold keys. rewrite (group_keys_In Z.eqb Z.leb fst ord_Z), in_map_iff. split; intros (r & ? & ?); eauto. }
  assert (K0 : keys <> []).
  { destruct rows as [|r rows]; [congruence|]. intros E. specialize (HK (fst r)). rewrite E in HK. simpl in HK. tauto. }
  assert (ND : forall k, Nat.eqb (List.length (group_of Z.eqb fst rows k))
        (List.length (dedup String.eqb (items_on k rows))) = true <-> NoDup (items_on k rows)).
  { intros k. rewrite Nat.eqb_eq, <- (dedup_length_eq_NoDup _ String.eqb_eq), <- group_items, map_length.
    split; congruence. }
  destruct (existsb _ (map _ keys)) eqn:E.
  - exists true. split; auto. split; [discriminate|]. intros (n & H). exfalso.
    apply existsb_exists in E as ([c u] & Hin & Hne). apply in_map_iff in Hin as (k & Ek & Hk).
    inversion Ek; subst. cbn [fst snd] in Hne. rewrite group_items in Hne.
    rewrite (proj2 (ND k)) in Hne; [discriminate|]. apply H. now apply HK.
  - rewrite existsb_false_iff in E.
    assert (NDk : forall k, In k keys -> NoDup (items_on k rows)).
    { intros k Hk. apply ND. specialize (E (List.length (group_of Z.eqb fst rows k),
         List.length (dedup String.eqb (map snd (group_of Z.eqb fst rows k))))).
      cbn [fst snd] in E. rewrite group_items in E. apply negb_false_iff, E. apply in_map_iff. eauto. }
    destruct keys as [|k0 keys'] eqn:EK; [congruence|]. cbn [map].
    eexists. split; [reflexivity|]. rewrite existsb_false_iff.
    change (List.length (group_of Z.eqb fst rows k0) :: map (fun x => List.length (group_of Z.eqb fst rows x)) keys')
      with (map (fun x => List.length (group_of Z.eqb fst rows x)) (k0 :: keys')).
    assert (LG : forall k, List.length (group_of Z.eqb fst rows k) = List.length (items_on k rows))
      by (intros; now rewrite <- group_items, map_length).
    split.
    + intros H. exists (List.length (items_on k0 rows)). intros d Hd. apply HK in Hd. split; auto.
      specialize (H (List.length (group_of Z.eqb fst rows d))).
      assert (X := H ltac:(apply in_map_iff; eauto)). apply negb_false_iff, Nat.eqb_eq in X. rewrite <- !LG. exact X.
    + intros (n & H) c Hc. apply in_map_iff in Hc as (k & <- & Hk). apply negb_false_iff, Nat.eqb_eq.
      rewrite !LG. destruct (H k) as [_ H1]; [now apply HK|]. destruct (H k0) as [_ H2]; [apply HK; now left|]. congruence.
Qed.

(* ---------------- spacing ---------------- *)
Lemma spacing_decides dates :
  decides (check_dates_spacing dates) (evenly_spaced 7 dates \/ evenly_spaced 1 dates).
Proof.
  unfold check_dates_spacing. destruct (forallb (Z.eqb 7) _) eqn:E7.
  - exists false. apply frequency_iff in E7. tauto.
  - destruct (forallb (Z.eqb 1) _) eqn:E1.
    + exists false. apply frequency_iff in E1. tauto.
    + exists true. split; auto. split; [discriminate|].
      rewrite <- !frequency_iff. intros [H|H]; congruence.
Qed.

(* ---------------- week ids ---------------- *)
Lemma pair_eqb_eq a b : pair_eqb a b = true <-> a = b.
Proof. apply (ord_eq _ _ (ord_pair _ _ _ _ ord_Z ord_Z)). Qed.

Lemma steps_forall (P : Z -> Prop) l : Forall P (steps l) <-> forall x y, adjacent l x y -> P (y - x).
Proof.
  induction l as [|a [|b l] IH]; cbn [steps].
  - split; [intros _ x y (u & v & E); destruct u; discriminate|constructor].
  - split; [intros _ x y (u & v & E); destruct u as [|? [|]]; discriminate|constructor].
  - split.
    + intros H x y ([|u0 u] & v & E).
      * inversion E; subst. now inversion H.
      * inversion E; subst. inversion H; subst. apply (proj1 IH H4). exists u, v. now rewrite H2.
    + intros H. constructor.
      * apply H. exists [], l. reflexivity.
      * apply IH. intros x y (u & v & E). apply H. exists (a :: u), v. now rewrite E.
Qed.

(** walking along a list with steps 0 and 1 *)
Lemma walk_up l : (forall x y, adjacent l x y -> y = x \/ y = x + 1) ->
  StronglySorted Z.le l /\ forall a b w, In a l -> In b l -> a <= w <= b -> In w l.
Proof.
  induction l as [|x l IH]; intros H.
  - split; [constructor|intros a b w []].
  - assert (Hl : forall a b, adjacent l a b -> b = a \/ b = a + 1).
    { intros a b (u & v & E). apply H. exists (x :: u), v. now rewrite E. }
    destruct (IH Hl) as [S I].
    destruct l as [|y l].
    + split; [repeat constructor|]. intros a b w [<-|[]] [<-|[]] Hw. left. lia.
    + assert (XY : y = x \/ y = x + 1) by (apply H; exists [], l; reflexivity).
      inversion S as [|? ? S' F]; subst. rewrite Forall_forall in F. split.
      * constructor; auto. constructor; [lia|]. apply Forall_forall. intros z Hz. specialize (F z Hz). lia.
      * intros a b w Ha Hb Hw. destruct (Z.eq_dec w x) as [->|N]; [now left|]. right.
        assert (B : In b (y :: l)).
        { destruct Hb as [<-|Hb]; auto. assert (a = x \/ x < a \/ a < x) by lia.
          destruct Ha as [<-|Ha]; [lia|]. assert (y <= a) by (destruct Ha as [<-|Ha]; [lia|now apply F]). lia. }
        assert (w >= y).
        { destruct Ha as [<-|Ha]; [lia|]. assert (y <= a) by (destruct Ha as [<-|Ha]; [lia|now apply F]). lia. }
        apply (I y b w); auto; [now left|lia].
Qed.

Lemma adjacent_map {A B} (f : A -> B) l x y : adjacent (map f l) x y <-> exists a b, adjacent l a b /\ f a = x /\ f b = y.
Proof.
  split.
  - intros (u & v & E). revert u E. induction l as [|c l IH]; intros u E; [destruct u; discriminate|].
    destruct u as [|u0 u].
    + destruct l as [|d l]; [discriminate|]. inversion E; subst. exists c, d. split; [exists [], l; reflexivity|auto].
    + inversion E; subst. destruct (IH u H1) as (a & b & (u' & v' & E') & H). exists a, b.
      split; auto. exists (c :: u'), v'. now rewrite E'.
  - intros (a & b & (u & v & ->) & <- & <-). exists (map f u), (map f v). now rewrite map_app.
Qed.

Lemma week_ids_pass by_date rows : orders_by_date by_date ->
  (check_week_ids by_date rows = Ok false <->
   forall x y, adjacent (map fst (by_date (dedup pair_eqb rows))) x y -> y = x \/ y = x + 1).
Proof.
  intros _. unfold check_week_ids. split.
  - intros H. inversion H as [E]. apply negb_false_iff in E. rewrite forallb_forall, <- Forall_forall in E.
    intros x y A. apply (proj1 (steps_forall _ _) E) in A. apply orb_true_iff in A as [A|A]; apply Z.eqb_eq in A; lia.
  - intros H. f_equal. apply negb_false_iff. rewrite forallb_forall, <- Forall_forall. apply steps_forall.
    intros x y A. apply H in A. apply orb_true_iff. destruct A as [->| ->]; [right|left]; apply Z.eqb_eq; lia.
Qed.

Lemma by_date_In by_date rows r : orders_by_date by_date -> In r (by_date (dedup pair_eqb rows)) <-> In r rows.
Proof.
  intros H. destruct (H (dedup pair_eqb rows)) as [P _]. rewrite <- (dedup_In _ pair_eqb_eq rows).
  split; intros X; [apply (Permutation_in _ P X)|apply (Permutation_in _ (Permutation_sym P) X)].
Qed.

Lemma week_ids_sound by_date rows : orders_by_date by_date ->
  check_week_ids by_date rows = Ok false -> ids_consecutive rows.
Proof.
  intros HO H. assert (H0 := proj1 (week_ids_pass _ rows HO) H). clear H. rename H0 into H. destruct (walk_up _ H) as [S I].
  assert (HI : forall r, In r (by_date (dedup pair_eqb rows)) <-> In r rows) by (intros; now apply by_date_In).
  destruct (HO (dedup pair_eqb rows)) as [_ SD].
  set (l := by_date (dedup pair_eqb rows)) in *. clearbody l. split.
  - intros a b w Ha Hb Hw. assert (X : In w (map fst l)).
    { apply (I (fst a) (fst b)); auto; apply in_map; now apply HI. }
    apply in_map_iff in X as (r & E & Hr). exists r. split; auto. now apply HI.
  - intros a b Ha Hb Hd. apply HI in Ha, Hb. clear HI I H.
    induction l as [|c l IH]; [destruct Ha|]. simpl in S. inversion S as [|? ? S' F]; subst. inversion SD as [|? ? SD' FD]; subst.
    rewrite Forall_forall in F, FD. destruct Ha as [<-|Ha], Hb as [<-|Hb].
    + lia.
    + apply F. now apply in_map.
    + apply FD in Ha. lia.
    + auto.
Qed.

Lemma week_ids_complete by_date rows : orders_by_date by_date -> one_week_per_date rows ->
  ids_consecutive rows -> check_week_ids by_date rows = Ok false.
Proof.
  intros HO HF [HI HM]. apply (week_ids_pass _ _ HO). intros x y A.
  apply adjacent_map in A as (a & b & (u & v & E) & <- & <-).
  assert (HIn : forall r, In r (by_date (dedup pair_eqb rows)) <-> In r rows) by (intros; now apply by_date_In).
  destruct (HO (dedup pair_eqb rows)) as [P SD].
  assert (ND : NoDup (by_date (dedup pair_eqb rows))).
  { apply (Permutation_NoDup (Permutation_sym P)), dedup_NoDup, pair_eqb_eq. }
  rewrite E in *. clear E P.
  assert (Ha : In a rows) by (apply HIn, in_or_app; right; now left).
  assert (Hb : In b rows) by (apply HIn, in_or_app; right; right; now left).
  (* everything before b is dated <= b etc. *)
  assert (SP : (forall r, In r u -> snd r <= snd a) /\ snd a <= snd b /\ (forall r, In r v -> snd b <= snd r)).
  { clear - SD. induction u as [|c u IH]; simpl in SD.
    - inversion SD as [|? ? S' F]; subst. inversion S' as [|? ? S'' F']; subst. rewrite Forall_forall in F, F'.
      repeat split; [intros r []|apply F; now left|auto].
    - inversion SD as [|? ? S' F]; subst. destruct (IH S') as (A & B & C). rewrite Forall_forall in F. repeat split; auto.
      intros r [<-|Hr]; auto. apply F, in_or_app. right. now left. }
  destruct SP as (S1 & S2 & S3).
  assert (AB : snd a < snd b).
  { assert (snd a <> snd b); [|lia]. intros Eq. assert (fst a = fst b) by (apply HF; auto).
    assert (a = b) by (destruct a, b; simpl in *; congruence). subst b.
    apply NoDup_remove_2 in ND. apply ND. apply in_or_app. right. now left. }
  assert (LE : fst a <= fst b) by (apply HM; auto).
  destruct (Z.eq_dec (fst b) (fst a)) as [|N1]; [now left|]. right.
  destruct (Z.eq_dec (fst b) (fst a + 1)) as [|N2]; auto. exfalso.
  destruct (HI a b (fst a + 1) Ha Hb) as (r & Hr & Er); [lia|].
  apply HIn in Hr. apply in_app_or in Hr as [Hr|[<-|[<-|Hr]]]; try lia.
  - assert (snd r <= snd a) by auto. assert (In r rows) by (apply HIn, in_or_app; now left).
    destruct (Z.eq_dec (snd r) (snd a)) as [Eq|]; [apply HF in Eq; auto; lia|]. assert (fst r <= fst a) by (apply HM; auto; lia). lia.
  - assert (snd b <= snd r) by auto. assert (In r rows) by (apply HIn, in_or_app; right; right; now right).
    destruct (Z.eq_dec (snd r) (snd b)) as [Eq|]; [apply HF in Eq; auto; lia|]. assert (fst b <= fst r) by (apply HM; auto; lia). lia.
Qed.

Lemma week_ids_decides by_date rows : orders_by_date by_date -> one_week_per_date rows ->
  decides (check_week_ids by_date rows) (ids_consecutive rows).
Proof.
  intros HO HF. eexists. split; [reflexivity|]. split.
  - intros E. apply (week_ids_sound by_date); auto. unfold check_week_ids. now rewrite E.
  - intros H. apply (week_ids_complete by_date) in H; auto. unfold check_week_ids in H. now inversion H.
Qed.

(* ---------------- metric values ---------------- *)
Lemma any_column_decides bad (good : num -> Prop) col metrics :
  (forall x, bad x = false <-> good x) -> (forall m, In m metrics -> col m <> None) ->
  decides (any_column bad col metrics) (forall m vals x, In m metrics -> col m = Some vals -> In x vals -> good x).
Proof.
  intros HB. induction metrics as [|m ms IH]; intros HC; simpl.
  - exists false. split; auto. split; auto. intros _ m vals x [].
  - destruct (col m) as [v|] eqn:E; [|exfalso; apply (HC m); auto; now left].
    destruct (existsb bad v) eqn:EB.
    + exists true. split; auto. split; [discriminate|]. intros H. exfalso.
      apply existsb_exists in EB as (x & Hx & Hb). specialize (H m v x (or_introl eq_refl) E Hx). apply HB in H. congruence.
    + destruct IH as (b & Eb & Hb); [intros; apply HC; now right|]. exists b. split; auto. rewrite Hb. split.
      * intros H m' vals x [<-|Hm] Hc Hx; eauto. rewrite existsb_false_iff in EB. rewrite E in Hc. inversion Hc; subst. apply HB. auto.
      * intros H m' vals x Hm. apply H. now right.
Qed.

Lemma fin_good x : negb (nis_fin x) = false <-> finite_value x.
Proof. unfold finite_value. destruct x; simpl; split; try discriminate; eauto; intros (r & H); congruence. Qed.
Lemma nonneg_good x : nltb x (Fin 0) = false <-> not_negative x.
Proof.
  unfold not_negative. destruct x as [r| | |]; cbn [nltb].
  - fold (nltb (Fin r) (Fin 0)). rewrite nltb_fin_false. split.
    + intros H. split; [discriminate|]. intros r' E. now inversion E; subst.
    + intros [_ H]. now apply H.
  - split; auto. intros _. split; [discriminate|]. discriminate.
  - split; [discriminate|tauto].
  - split; auto. intros _. split; [discriminate|]. discriminate.
Qed.

(* ---------------- items, dates, arms ---------------- *)
Lemma n_items_decides items d :
  decides (check_n_items items d) (exists n, has_card (fun i => In i items) n /\ Z.of_nat n = n_pre d).
Proof.
  eexists. split; [reflexivity|]. rewrite negb_false_iff, Z.eqb_eq. split.
  - intros H. eexists. split; [|exact H]. now apply (dedup_card String.eqb String.eqb_eq).
  - intros (n & H & <-). f_equal. now apply (dedup_card String.eqb String.eqb_eq).
Qed.

Lemma fold_min_spec l x : is_min (fold_left Z.min l x) (x :: l).
Proof.
  revert x. induction l as [|a l IH]; intros x; cbn [fold_left].
  - split; [now left|]. intros y [<-|[]]. lia.
  - destruct (IH (Z.min x a)) as [H1 H2]. split.
    + destruct H1 as [H1|H1]; [|right; now right]. rewrite <- H1.
      destruct (Z.min_spec x a) as [[_ ->]|[_ ->]]; [now left|right; now left].
    + intros y [<-|[<-|Hy]]; [| |apply H2; now right];
        (transitivity (Z.min x a); [apply H2; now left|lia]).
Qed.
Lemma fold_max_spec l x : is_max (fold_left Z.max l x) (x :: l).
Proof.
  revert x. induction l as [|a l IH]; intros x; cbn [fold_left].
  - split; [now left|]. intros y [<-|[]]. lia.
  - destruct (IH (Z.max x a)) as [H1 H2]. split.
    + destruct H1 as [H1|H1]; [|right; now right]. rewrite <- H1.
      destruct (Z.max_spec x a) as [[_ ->]|[_ ->]]; [right; now left|now left].
    + intros y [<-|[<-|Hy]]; [| |apply H2; now right];
        (transitivity (Z.max x a); [lia|apply H2; now left]).
Qed.
Lemma list_min_spec l : l <> [] -> exists m, list_min l = Some m /\ is_min m l.
Proof. destruct l as [|x l]; [congruence|]. intros _. eexists. split; [reflexivity|apply fold_min_spec]. Qed.
Lemma list_max_spec l : l <> [] -> exists m, list_max l = Some m /\ is_max m l.
Proof. destruct l as [|x l]; [congruence|]. intros _. eexists. split; [reflexivity|apply fold_max_spec]. Qed.

Lemma dates_match_decides dates d start concluded : dates <> [] ->
  decides (check_dates_match dates d start concluded) (dates_cover dates d start concluded).
Proof.
  intros HN. unfold check_dates_match, dates_cover.
  destruct (list_min_spec dates HN) as (m & -> & Hm1 & Hm2). destruct (list_max_spec dates HN) as (M & -> & HM1 & HM2).
  cbn [date_gt date_lt].
  replace (start - pretest (par d) * 7 * day) with (start - 7 * day_ns * pretest (par d)) by (rewrite <- day_eq; ring).
  replace (start + (runtime (par d) - 1) * 7 * day) with (start + 7 * day_ns * (runtime (par d) - 1)) by (rewrite <- day_eq; ring).
  set (lo := start - 7 * day_ns * pretest (par d)). set (hi := start + 7 * day_ns * (runtime (par d) - 1)). clearbody lo hi.
  destruct (Z.ltb_spec lo m).
  - exists true. split; auto. split; [discriminate|]. intros [(x & Hx & ?) _]. apply Hm2 in Hx. lia.
  - destruct concluded; [destruct (Z.ltb_spec M hi)|].
    + exists true. split; auto. split; [discriminate|]. intros [_ H1]. destruct (H1 eq_refl) as (x & Hx & ?).
      apply HM2 in Hx. lia.
    + exists false. split; auto. split; auto. intros _. split; eauto.
    + exists false. split; auto. split; auto. intros _. split; [eauto|discriminate].
Qed.

Lemma unique_arm_decides rows : decides (check_unique_arm rows) (single_arm rows).
Proof.
  eexists. split; [reflexivity|]. rewrite existsb_false_iff. unfold groupby. split.
  - intros H i a b Ha Hb.
    specialize (H (i, group_of String.eqb fst rows i)).
    assert (X := H ltac:(apply in_map_iff; exists i; split; auto; apply (group_keys_In String.eqb sleb fst ord_string); exists (i, a); auto)).
    clear H. apply negb_false_iff, Nat.eqb_eq in X. cbn [snd] in X.
    assert (Ia : In a (dedup Z.eqb (map snd (group_of String.eqb fst rows i)))).
    { apply (dedup_In _ Z.eqb_eq), in_map_iff. exists (i, a). split; auto. apply (group_of_In String.eqb sleb fst ord_string); auto. }
    assert (Ib : In b (dedup Z.eqb (map snd (group_of String.eqb fst rows i)))).
    { apply (dedup_In _ Z.eqb_eq), in_map_iff. exists (i, b). split; auto. apply (group_of_In String.eqb sleb fst ord_string); auto. }
    destruct (dedup Z.eqb _) as [|z [|? ?]]; try discriminate. destruct Ia as [<-|[]], Ib as [<-|[]]. reflexivity.
  - intros H [i g] Hg. apply in_map_iff in Hg as (i' & E & Hi). inversion E; subst i' g. cbn [snd].
    apply negb_false_iff, Nat.eqb_eq.
    apply (group_keys_In String.eqb sleb fst ord_string) in Hi as ([i' a] & Hr & <-). cbn [fst].
    apply (dedup_count Z.eqb Z.eqb_eq _ [a]); [repeat constructor; intros []|].
    intros x. rewrite in_map_iff. split.
    + intros [<-|[]]. exists (i', a). split; auto. apply (group_of_In String.eqb sleb fst ord_string); auto.
    + intros ([j b] & <- & Hb). apply (group_of_In String.eqb sleb fst ord_string) in Hb as [Hb Ej]. cbn [fst snd] in *. subst j.
      left. eapply H; eauto.
Qed.

Lemma coinflip_decides rows d s : salt (par d) = Some s -> s <> "" ->
  decides (check_coinflip rows d) (arms_from_salt s rows).
Proof.
  intros E N. unfold check_coinflip. rewrite E. unfold mk_coinflip. destruct s as [|c0 s0]; [congruence|]. simpl bind.
  eexists. split; [reflexivity|]. rewrite negb_false_iff, forallb_forall. split.
  - intros H i a Hi. specialize (H _ Hi). now apply Z.eqb_eq in H.
  - intros H [i a] Hi. apply Z.eqb_eq. apply H, Hi.
Qed.

Lemma arm_count_card a rows n : arm_count a rows = Z.of_nat n <-> has_card (fun i => In (i, a) rows) n.
Proof.
  unfold arm_count, groupby.
  assert (F : forall ks, NoDup ks -> find (fun g => fst g =? a) (map (fun k => (k, group_of Z.eqb snd rows k)) ks) =
     if existsb (Z.eqb a) ks then Some (a, group_of Z.eqb snd rows a) else None).
  { induction ks as [|k ks IH]; intros Hn; simpl; auto. inversion Hn; subst. rewrite (Z.eqb_sym a k).
    destruct (Z.eqb_spec k a); subst; simpl; auto. }
  rewrite F by (apply (group_keys_NoDup Z.eqb Z.leb snd ord_Z)).
  assert (HI : forall i, In i (map fst (group_of Z.eqb snd rows a)) <-> In (i, a) rows).
  { intros i. rewrite in_map_iff. split.
    - intros ([j b] & <- & Hr). apply (group_of_In Z.eqb Z.leb snd ord_Z) in Hr as [Hr <-]. exact Hr.
    - intros Hr. exists (i, a). split; auto. apply (group_of_In Z.eqb Z.leb snd ord_Z). auto. }
  assert (C : List.length (dedup String.eqb (map fst (group_of Z.eqb snd rows a))) = n <-> has_card (fun i => In (i, a) rows) n).
  { rewrite (dedup_card String.eqb String.eqb_eq). unfold has_card.
    split; intros (l & H1 & H2 & H3); exists l; split; auto; split; auto; intros x; rewrite H3; [apply HI|symmetry; apply HI]. }
  destruct (existsb (Z.eqb a) _) eqn:E; cbn [snd].
  - rewrite <- C. lia.
  - rewrite <- C. replace (group_of Z.eqb snd rows a) with (@nil (string * Z)).
    + simpl. lia.
    + symmetry. destruct (group_of Z.eqb snd rows a) as [|r l] eqn:EG; auto. exfalso.
      assert (Hr : In r (group_of Z.eqb snd rows a)) by (rewrite EG; now left).
      apply (group_of_In Z.eqb Z.leb snd ord_Z) in Hr as [Hr Ha].
      rewrite existsb_false_iff in E. specialize (E a). rewrite Z.eqb_refl in E. discriminate E.
      apply (group_keys_In Z.eqb Z.leb snd ord_Z). eauto.
Qed.
