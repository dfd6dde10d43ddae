(** C88: the preparation of raw experiment data. *)
From Coq Require Import ZArith Reals Lra List String Bool Lia Permutation.
From Flocq Require Import Core BinarySingleNaN.
Require Import Verif.Base Verif.Num Verif.Frame Verif.F64 Verif.ListLib Verif.Design_Model Verif.Standard_Model Verif.Standard_Props Verif.Experiment_Props
  Verif.Periods_Model Verif.Rows_Model Verif.Checks_Model Verif.Checks_Spec Verif.Pipeline_Model
  Verif.Rows_Spec Verif.Entry_Model Verif.Entry_Spec Verif.Entry_Proofs Verif.Entry_Props.
Import ListNotations.
Open Scope string_scope.
Open Scope list_scope.
Open Scope Z_scope.

(** *** The performance data *)
Lemma request_sources item date inputs others : List.length inputs = 5%nat ->
  exists c i co cv v, inputs = [c; i; co; cv; v] /\
    request item date c i co cv v (map (fun c => (c, c)) others) = ("item_id", item) :: ("date", date) :: metric_sources inputs others.
Proof.
  intros H. destruct inputs as [|c [|i [|co [|cv [|v [|]]]]]]; try discriminate. exists c, i, co, cv, v. split; [reflexivity|].
  destruct c, i, co, cv, v; reflexivity.
Qed.

Lemma sources_names inputs others : List.length inputs = 5%nat -> map fst (metric_sources inputs others) = given_metrics inputs ++ others.
Proof.
  intros H. destruct inputs as [|c [|i [|co [|cv [|v [|]]]]]]; try discriminate. unfold metric_sources, given_metrics.
  rewrite map_app, map_map. cbn [fst]. rewrite map_id. f_equal. destruct c, i, co, cv, v; reflexivity.
Qed.

Lemma dict_get_floats (to_float : parser) n others : dict_get n (map (fun c => (c, to_float)) others) = if existsb (String.eqb n) others then Some to_float else None.
Proof.
  induction others as [|a l IH]; [reflexivity|]. cbn [map dict_get existsb]. rewrite IH. destruct (existsb (String.eqb n) l); [now rewrite orb_true_r|].
  rewrite orb_false_r. reflexivity.
Qed.

Lemma given_standard inputs n : List.length inputs = 5%nat -> In n (given_metrics inputs) -> In n standard_names.
Proof.
  intros H. destruct inputs as [|c [|i [|co [|cv [|v [|]]]]]]; try discriminate.
  unfold given_metrics. cbn [combine flat_map]. intros Hn. destruct c, i, co, cv, v; cbn in Hn |- *; intuition auto.
Qed.

Lemma performance_standardized std to_float perf item date inputs others ids dates cols :
  performance_reads std to_float perf item date inputs others ids dates cols ->
  exists out, standardize std perf (Some item :: Some date :: inputs) (map (fun c => (c, c)) others) (map (fun c => (c, to_float)) others) = Ok out /\
    columns out = "item_id" :: "date" :: given_metrics inputs ++ others /\
    rows_of out (given_metrics inputs ++ others) = table_rows ids dates cols.
Proof.
  intros (HL & ND & NO & HO & (v1 & G1 & L1 & C1) & (v2 & G2 & L2 & C2) & _ & HM & _).
  destruct (request_sources item date inputs others HL) as (c & i & co & cv & v & EI & ER).
  set (parsers := map (fun c => (c, to_float)) others).
  assert (PS : forall n, ~ In n others -> In n standard_names -> convert std parsers n = std n).
  { intros n Hn Hs. unfold convert, parse_fun, parsers. rewrite dict_get_floats.
    destruct (existsb (String.eqb n) others) eqn:E; [apply (existsb_eqb_In _ String.eqb_eq) in E; contradiction|].
    now rewrite (proj2 (in_names_iff n standard_names) Hs). }
  assert (PO : forall n, In n others -> convert std parsers n = to_float).
  { intros n Hn. unfold convert, parse_fun, parsers. rewrite dict_get_floats.
    now rewrite (proj2 (existsb_eqb_In _ String.eqb_eq _ _) Hn). }
  assert (ST : forall n, In n standard_names -> ~ In n others) by (intros n Hn Ho; apply (HO n Ho); cbn in Hn |- *; tauto).
  assert (C1' : convert std parsers "item_id" v1 = Ok (map CStr ids)) by (rewrite PS; [exact C1|apply ST; cbn; auto|cbn; auto]).
  assert (C2' : convert std parsers "date" v2 = Ok (map CZ dates)) by (rewrite PS; [exact C2|apply ST; cbn; auto|cbn; auto]).
  assert (CM : forall src, In src (metric_sources inputs others) -> convert std parsers (fst src) = if existsb (String.eqb (fst src)) others then to_float else std (fst src)).
  { intros src Hs. assert (Hn : In (fst src) (given_metrics inputs ++ others)) by (rewrite <- sources_names by assumption; now apply in_map).
    destruct (existsb (String.eqb (fst src)) others) eqn:E.
    - apply PO. now apply (existsb_eqb_In _ String.eqb_eq) in E.
    - apply PS; [intros X; apply (existsb_eqb_In _ String.eqb_eq) in X; congruence|]. apply in_app_or in Hn as [Hn|Hn]; [eapply given_standard; eauto|].
      apply (existsb_eqb_In _ String.eqb_eq) in Hn. congruence. }
  rewrite EI.
  destruct (standardize_reads std perf item date c i co cv v (map (fun c => (c, c)) others) parsers) as (out & E1 & E2 & E3).
  - unfold request_ok. rewrite ER. split; [|split].
    + intros n Hn. rewrite map_map in Hn. cbn in Hn. rewrite map_id in Hn. intros X. apply (HO n Hn). cbn in X |- *. tauto.
    + intros n Hn. unfold parsers in Hn. rewrite map_map in Hn |- *. exact Hn.
    + cbn [map snd]. intros n [<-|[<-|Hn]]; try (apply has_col_get; eauto).
      apply in_map_iff in Hn as (src & <- & Hs). destruct (Forall2_In_l _ _ _ _ HM Hs) as (l & _ & w & G & _). eauto.
  - rewrite map_map. cbn. now rewrite map_id.
  - rewrite ER. exact ND.
  - rewrite ER. intros ni [<-|[<-|Hn]]; cbn [fst snd]; eauto.
    destruct (Forall2_In_l _ _ _ _ HM Hn) as (l & _ & w & G & _ & C). rewrite <- CM in C by assumption. eauto.
  - rewrite ER in E2, E3. exists out. split; [exact E1|]. rewrite <- EI. split.
    + rewrite E2. cbn [map fst]. now rewrite sources_names.
    + apply rows_of_table.
      * apply (E3 ("item_id", item) v1); [now left|exact G1|exact C1'].
      * apply (E3 ("date", date) v2); [right; now left|exact G2|exact C2'].
      * rewrite <- sources_names by assumption.
        assert (X : forall src l, In src (metric_sources inputs others) -> reads CNum (if existsb (String.eqb (fst src)) others then to_float else std (fst src)) perf (snd src) l -> get_col (fst src) out = Some (map CNum l)).
        { intros src l Hs (w & G & _ & C). rewrite <- CM in C by assumption. apply (E3 src w); [right; right; exact Hs|exact G|exact C]. }
        clear - HM X. induction HM as [|a b l l' H _ IH]; [constructor|]. constructor; [apply X; [now left|exact H]|]. apply IH. intros; apply X; [now right|assumption].
Qed.

(** *** The assignment data *)
Lemma get_col_In c (f : frame) v : get_col c f = Some v -> In (c, v) f.
Proof. induction f as [|[x w] f IH]; cbn; [discriminate|]. destruct (String.eqb_spec c x); [intros [= ->]; subst; now left|]. right; auto. Qed.

Lemma occurrences_NoDup n l : NoDup l -> In n l -> occurrences n l = 1%nat.
Proof.
  unfold occurrences. induction 1 as [|a l Ha N IH]; intros Hn; [destruct Hn|]. cbn [filter]. destruct (String.eqb_spec n a).
  - subst. cbn. f_equal. destruct (filter (String.eqb a) l) eqn:F; [reflexivity|]. exfalso. assert (X : In s (filter (String.eqb a) l)) by (rewrite F; now left).
    apply filter_In in X as [X Y]. apply String.eqb_eq in Y. subst. contradiction.
  - destruct Hn as [Hn|Hn]; [congruence|auto].
Qed.

Section Rename.
Variables (item arm : string) (asg : frame).
Hypothesis HN : NoDup (columns asg).
Hypothesis HD : item <> arm.
Hypothesis HX : forall n, In n (columns (other_columns item arm asg)) -> n <> "item_id" /\ n <> "treatment_assignment".

Lemma other_name n : In n (columns asg) -> n <> item -> n <> arm -> n <> "item_id" /\ n <> "treatment_assignment".
Proof.
  intros H A B. apply HX. unfold columns in *. apply in_map_iff in H as (nv & <- & H). apply in_map. apply filter_In. split; [exact H|].
  apply String.eqb_neq in A, B. now rewrite A, B.
Qed.

Lemma renamed_columns : columns (rename_assignment item arm asg) =
  map (fun n => if String.eqb n arm then "treatment_assignment" else if String.eqb n item then "item_id" else n) (columns asg).
Proof. unfold columns, rename_assignment. rewrite !map_map. reflexivity. Qed.

Lemma renamed_NoDup : NoDup (columns (rename_assignment item arm asg)).
Proof.
  rewrite renamed_columns. assert (K := other_name). revert K. clear HX. induction (columns asg) as [|a l IH]; intros K; [constructor|].
  inversion HN; subst. cbn [map]. constructor; [|apply IH; [assumption|intros; apply K; [now right|assumption|assumption]]].
  intros X. apply in_map_iff in X as (b & E & Hb).
  assert (a <> b) by (intros ->; contradiction).
  assert (KA := K a (or_introl eq_refl)). assert (KB := K b (or_intror Hb)).
  destruct (String.eqb_spec b arm), (String.eqb_spec a arm), (String.eqb_spec b item), (String.eqb_spec a item); subst; try congruence; try discriminate E;
    try (destruct (KA ltac:(assumption) ltac:(assumption)); congruence); try (destruct (KB ltac:(assumption) ltac:(assumption)); congruence).
Qed.

Lemma renamed_item v : get_col item asg = Some v -> get_col "item_id" (rename_assignment item arm asg) = Some v.
Proof.
  intros H. apply get_col_combine; [exact renamed_NoDup|]. apply get_col_In in H. unfold rename_assignment. apply in_map_iff. exists (item, v). split; [|exact H].
  cbn [fst snd]. apply String.eqb_neq in HD. now rewrite HD, String.eqb_refl.
Qed.
Lemma renamed_arm v : get_col arm asg = Some v -> get_col "treatment_assignment" (rename_assignment item arm asg) = Some v.
Proof.
  intros H. apply get_col_combine; [exact renamed_NoDup|]. apply get_col_In in H. unfold rename_assignment. apply in_map_iff. exists (arm, v). split; [|exact H].
  cbn [fst snd]. now rewrite String.eqb_refl.
Qed.
Lemma renamed_extra : extra_columns (rename_assignment item arm asg) = other_columns item arm asg.
Proof.
  assert (K := other_name). unfold extra_columns, other_columns, rename_assignment. clear HN HX. induction asg as [|[a v] l IH]; [reflexivity|]. cbn [map filter fst snd].
  rewrite IH by (intros; apply K; [now right|assumption|assumption]).
  destruct (String.eqb_spec a arm); [cbn; now rewrite orb_true_r|]. destruct (String.eqb_spec a item); [reflexivity|].
  destruct (K a (or_introl eq_refl)) as [A B]; [assumption|assumption|]. apply String.eqb_neq in A, B. rewrite A, B. reflexivity.
Qed.
End Rename.

(** the rows of the assignment data *)
Definition assigned_rows (item arm : string) (asg : frame) (ids : list string) (arms : list Z) : list arow :=
  map (fun i => mkAR (nth i ids "") (nth i arms 0) (map (fun nv : string * list cell => nth i (snd nv) CNull) (other_columns item arm asg))) (seq 0 (List.length ids)).

Lemma only_col_ok c f v : NoDup (columns f) -> get_col c f = Some v -> only_col c f = Ok v.
Proof.
  intros N G. unfold only_col. assert (H : In c (columns f)) by (unfold columns; change c with (fst (c, v)); apply in_map; now apply get_col_In).
  rewrite (occurrences_NoDup _ _ N H). cbn. unfold col_or_nil. now rewrite G.
Qed.

Lemma assignment_standardized std to_int asg item arm ids arms : assignment_reads std to_int asg item arm ids arms ->
  assignment_of std to_int item arm asg = Ok (assigned_rows item arm asg ids arms) /\
  extra_columns (rename_assignment item arm asg) = other_columns item arm asg.
Proof.
  intros (N & D & X & (v & G & L & C) & (w & GW & LW & CW) & LA & _). split; [|now apply renamed_extra].
  unfold assignment_of. rewrite (only_col_ok _ _ v) by (try apply renamed_NoDup; try apply renamed_item; assumption). cbn [bind]. rewrite C. cbn [bind].
  rewrite (only_col_ok _ _ w) by (try apply renamed_NoDup; try apply renamed_arm; assumption). cbn [bind]. rewrite CW. cbn [bind].
  f_equal. unfold assigned_rows. rewrite map_length, renamed_extra by assumption. apply map_ext. intros i. now rewrite text_nth.
Qed.

Lemma pairs_of_rows item arm asg : forall ids arms, List.length arms = List.length ids ->
  map (fun a => (a_item a, a_arm a)) (assigned_rows item arm asg ids arms) = combine ids arms.
Proof.
  intros ids arms H. unfold assigned_rows. rewrite map_map. cbn [a_item a_arm]. revert arms H.
  induction ids as [|x ids IH]; intros [|a arms] H; try discriminate; [reflexivity|]. cbn [List.length seq map combine nth]. f_equal.
  rewrite <- seq_shift, map_map. apply IH. now injection H.
Qed.

(** *** The validation *)
Lemma no_nulls_app a b : check_no_nulls (a ++ b) = (let! x := check_no_nulls a in let! y := check_no_nulls b in Ok (orb x y)).
Proof. unfold check_no_nulls. rewrite map_app, existsb_app. reflexivity. Qed.

Lemma run_check_ok name skip b : run_check name skip (Ok b) = Ok tt <-> b = false \/ In name skip.
Proof.
  unfold run_check. cbn [bind]. destruct b; cbn [negb].
  - destruct (existsb (String.eqb name) skip) eqn:E.
    + split; [intros _; right; now apply (existsb_eqb_In _ String.eqb_eq)|reflexivity].
    + split; [discriminate|]. intros [H|H]; [discriminate|]. apply (existsb_eqb_In _ String.eqb_eq) in H. congruence.
  - split; auto.
Qed.

Lemma validate_with_cells by_date binom v cells d metrics start concluded neg skip :
  validate_experiment_data by_date binom (mkV (v_cells v ++ cells) (v_items v) (v_dates v) (v_weeks v) (v_arms v) (v_col v)) d metrics start concluded neg skip = Ok tt <->
  validate_experiment_data by_date binom v d metrics start concluded neg skip = Ok tt /\ (In "no_nulls" skip \/ check_no_nulls cells = Ok false).
Proof.
  unfold validate_experiment_data. cbn [v_cells v_items v_dates v_weeks v_arms v_col]. rewrite no_nulls_app.
  assert (B1 : exists b1, check_no_nulls (v_cells v) = Ok b1) by (eexists; reflexivity). assert (B2 : exists b2, check_no_nulls cells = Ok b2) by (eexists; reflexivity).
  destruct B1 as (b1 & E1), B2 as (b2 & E2). rewrite E1, E2. cbn [bind].
  match goal with |- context [bind (run_check "no_nulls" skip (Ok b1)) ?k] => set (K := k) end.
  destruct (assert_all_exist skip) as [?|]; [|cbn [bind]; split; [discriminate|intros [? _]; discriminate]]. cbn [bind].
  destruct (run_check "primary_metric_in_metrics" skip (check_primary metrics (metric (par d)))) as [?|]; [|cbn [bind]; split; [discriminate|intros [? _]; discriminate]].
  cbn [bind]. assert (K0 : forall a, K a = K tt) by reflexivity. split.
  - intros H. apply bind_ok in H as ([] & H & H'). apply run_check_ok in H. split.
    + assert (X : run_check "no_nulls" skip (Ok b1) = Ok tt) by (apply run_check_ok; destruct H as [H|H]; [left; now apply orb_false_iff in H|now right]). rewrite X. exact H'.
    + destruct H as [H|H]; [right; apply orb_false_iff in H as [_ ->]; reflexivity|now left].
  - intros [H H2]. apply bind_ok in H as ([] & H & H'). apply run_check_ok in H.
    assert (X : run_check "no_nulls" skip (Ok (b1 || b2)%bool) = Ok tt).
    { apply run_check_ok. destruct H as [H|H]; [|now right]. destruct H2 as [H2|H2]; [now right|]. left. injection H2 as ->. now rewrite H. }
    rewrite X. exact H'.
Qed.

Lemma merged_view_no_overlap data n : merged_view [] data n =
  let v := experiment_view (map fst data) in
  mkV (v_cells v ++ map (fun j => map (fun x => nth j (a_extra (snd x)) CNull) data) (seq 0 n)) (v_items v) (v_dates v) (v_weeks v) (v_arms v) (v_col v).
Proof. reflexivity. Qed.

Lemma no_nulls_ok cols : check_no_nulls cols = Ok false <-> forall c x, In c cols -> In x c -> null_cell x = false.
Proof.
  unfold check_no_nulls. split.
  - intros [= H] c x Hc Hx. rewrite existsb_false_iff in H. specialize (H _ (in_map _ _ _ Hc)). apply Nat.ltb_ge in H.
    destruct (null_cell x) eqn:E; [|reflexivity]. exfalso. assert (F : In x (filter null_cell c)) by now apply filter_In.
    destruct (filter null_cell c); [destruct F|cbn in H; lia].
  - intros H. f_equal. apply existsb_false_iff. intros n Hn. apply in_map_iff in Hn as (c & <- & Hc). apply Nat.ltb_ge.
    destruct (filter null_cell c) as [|x l] eqn:F; [cbn; lia|]. exfalso. assert (X : In x (filter null_cell c)) by (rewrite F; now left).
    apply filter_In in X as [X Y]. rewrite (H c x Hc X) in Y. discriminate.
Qed.

(** *** From the raw data to the prepared rows *)
Definition merged_rows (assigned : list arow) (s : list (wrow * list (string * num)) * (Z -> label)) : list (erow * arow) :=
  flat_map (fun rc => map (fun a => (mkE (o_item (w_obs (fst rc))) (o_date (w_obs (fst rc))) (snd rc)
                       (w_week (fst rc)) (w_start (fst rc)) (snd s (w_week (fst rc))) (a_arm a), a))
        (filter (fun a => String.eqb (a_item a) (o_item (w_obs (fst rc)))) assigned)) (fst s).

Lemma merged_rows_fst assigned s :
  map fst (merged_rows assigned s) =
  flat_map (fun rc => map (fun ia => mkE (o_item (w_obs (fst rc))) (o_date (w_obs (fst rc))) (snd rc)
                       (w_week (fst rc)) (w_start (fst rc)) (snd s (w_week (fst rc))) (snd ia))
        (filter (fun ia : string * Z => String.eqb (fst ia) (o_item (w_obs (fst rc)))) (map (fun a => (a_item a, a_arm a)) assigned))) (fst s).
Proof.
  unfold merged_rows. induction (fst s) as [|rc l IH]; [reflexivity|]. cbn [flat_map]. rewrite map_app, IH. f_equal.
  rewrite map_map. cbn [fst]. clear. induction assigned as [|a l IH]; [reflexivity|]. cbn [filter map fst].
  destruct (String.eqb (a_item a) (o_item (w_obs (fst rc)))); cbn [map]; rewrite ?IH; reflexivity.
Qed.

Lemma merged_rows_In assigned s r a : In (r, a) (merged_rows assigned s) -> In a assigned /\ e_item r = a_item a /\ e_arm r = a_arm a.
Proof.
  unfold merged_rows. intros H. apply in_flat_map in H as (rc & _ & H). apply in_map_iff in H as (b & [= <- <-] & H).
  apply filter_In in H as [H E]. apply String.eqb_eq in E. cbn. auto.
Qed.

Lemma merged_rows_all assigned s r a b : In (r, a) (merged_rows assigned s) -> In b assigned -> a_item b = a_item a -> exists r', In (r', b) (merged_rows assigned s).
Proof.
  unfold merged_rows. intros H Hb E. apply in_flat_map in H as (rc & Hrc & H). apply in_map_iff in H as (b' & [= <- <-] & H).
  apply filter_In in H as [H E']. eexists. apply in_flat_map. exists rc. split; [exact Hrc|]. apply in_map_iff. exists b. split; [reflexivity|].
  apply filter_In. split; [exact Hb|]. now rewrite E.
Qed.

Lemma table_items ids dates cols : map o_item (table_rows ids dates cols) = ids.
Proof.
  unfold table_rows. rewrite map_map. cbn [o_item]. induction ids as [|x l IH]; [reflexivity|]. cbn [List.length seq map nth]. f_equal.
  rewrite <- seq_shift, map_map. exact IH.
Qed.

Lemma map_text ids : map text_of (map CStr ids) = ids.
Proof. rewrite map_map. cbn. apply map_id. Qed.

Lemma missing_rows (missing : list string) z k :
  map (fun id => mkObs (fst id) (instant_of (snd id)) (repeat NaN k)) (combine missing (repeat (CZ z) (List.length missing)))
  = map (fun i => mkObs i z (repeat NaN k)) missing.
Proof. induction missing as [|x l IH]; [reflexivity|]. cbn [List.length repeat combine map fst snd instant_of]. now rewrite IH. Qed.

Lemma map_const_repeat {A B} (c : B) (l : list A) : map (fun _ => c) l = repeat c (List.length l).
Proof. induction l; cbn; congruence. Qed.

Definition fresh_columns (item arm : string) (asg : frame) (metrics : list string) (alo : list (string * string)) : Prop :=
  ~ In "treatment_assignment" (map snd alo) /\
  forall n, In n (columns (other_columns item arm asg)) -> ~ In n (["date"; "week_id"; "week_start"; "time_period"] ++ metrics ++ map snd alo).

Lemma entry_steps std to_float to_int by_date binom outer perf asg d start item date arm inputs others neg alo concluded skip ids dates cols aids arms :
  performance_reads std to_float perf item date inputs others ids dates cols ->
  assignment_reads std to_int asg item arm aids arms ->
  fresh_columns item arm asg (given_metrics inputs ++ others) alo ->
  exists steps,
    experiment_entry std to_float to_int by_date binom outer perf asg d start item date arm inputs others neg alo concluded skip =
      (let! s := steps in
       let data := merged_rows (assigned_rows item arm asg aids arms) s in
       let! _ := validate_experiment_data by_date binom (merged_view [] data (List.length (other_columns item arm asg))) d (given_metrics inputs ++ others) start concluded neg skip in
       Ok data) /\
    prepare_experiment by_date binom outer (table_rows ids dates cols) (combine aids arms) d (given_metrics inputs ++ others) start concluded neg alo skip =
      (let! s := steps in
       let data := map fst (merged_rows (assigned_rows item arm asg aids arms) s) in
       let! _ := validate_experiment_data by_date binom (experiment_view data) d (given_metrics inputs ++ others) start concluded neg skip in
       Ok data).
Proof.
  intros HP HA [HF1 HF2]. destruct (performance_standardized _ _ _ _ _ _ _ _ _ _ HP) as (out & E1 & E2 & E3).
  destruct (assignment_standardized _ _ _ _ _ _ _ HA) as (EA & EX).
  assert (LA : List.length arms = List.length aids) by (destruct HA as (_ & _ & _ & _ & _ & L & _); exact L).
  destruct HP as (HL & ND & NO & HO & (v1 & G1 & L1 & C1) & (v2 & G2 & L2 & C2) & LD & HM & FD).
  set (metrics := given_metrics inputs ++ others) in *. set (rows := assigned_rows item arm asg aids arms) in *.
  set (k := List.length metrics). set (tab := table_rows ids dates cols) in *.
  exists (let! _ := raise_if (match rows with [] => true | _ => false end) (ZeroDivisionError "frac_missing") in
     let! first_date := match tab with [] => Err (IndexError "values[0]") | r :: _ => Ok (o_date r) end in
     let merged := outer (tab ++ map (fun i => mkObs i first_date (repeat NaN k)) (missing_items tab (combine aids arms))) in
     let! filled := fill_missing_rows_with_zeros ("item_id" :: "date" :: metrics) "item_id" "date" k merged in
     let weekly := add_weeks (Some start) filled in
     let! lab := label_fun (par d) 0 in
     let! with_cols := mapM (fun r => let! c := at_least_one_row alo (combine metrics (o_vals (w_obs r))) in Ok (r, c)) weekly in
     Ok (with_cols, lab)).
  assert (EP : combine aids arms = map (fun a => (a_item a, a_arm a)) rows) by (unfold rows; now rewrite pairs_of_rows).
  split.
  - unfold experiment_entry. fold metrics. fold k. rewrite EA. cbn [bind]. rewrite G1, C1. cbn [bind]. rewrite map_text, EX. fold rows.
    assert (EM : dedup String.eqb (filter (fun i => negb (existsb (String.eqb i) ids)) (map a_item rows)) = missing_items tab (combine aids arms)).
    { unfold missing_items, tab. rewrite table_items, EP, map_map. reflexivity. }
    rewrite EM. destruct rows as [|a0 rows'] eqn:ER; [reflexivity|]. rewrite <- ER. clear ER. cbn [raise_if bind].
    rewrite G2. destruct v2 as [|c0 cs].
    { destruct dates; [|discriminate]. destruct ids; [|discriminate]. reflexivity. }
    destruct dates as [|z zs]; [discriminate|]. cbn [bind]. rewrite map_const_repeat, (FD c0 cs z zs _ G2 eq_refl). cbn [bind].
    match goal with |- context [standardize std perf ?a ?b ?c] => replace (standardize std perf a b c) with (Ok out : result frame) by (symmetry; exact E1) end. cbn [bind].
    rewrite E3, E2, missing_rows. fold metrics.
    assert (ET : match tab with [] => Err (IndexError "values[0]") | r :: _ => Ok (o_date r) end = Ok z).
    { unfold tab, table_rows. destruct ids; [discriminate|]. reflexivity. }
    rewrite ET. cbn [bind].
    assert (TP : existsb (String.eqb "time_period") metrics = false).
    { destruct (existsb (String.eqb "time_period") metrics) eqn:T; [|reflexivity]. exfalso. apply (existsb_eqb_In _ String.eqb_eq) in T. unfold metrics in T.
      apply in_app_or in T as [T|T]; [apply given_standard in T; [|assumption]; cbn in T; intuition discriminate|apply (HO _ T); cbn; tauto]. }
    rewrite TP.
    assert (OV : filter (fun c => existsb (String.eqb c) ("treatment_assignment" :: map fst (other_columns item arm asg)))
       ("date" :: "week_id" :: "week_start" :: "time_period" :: metrics ++ map snd alo) = []).
    { match goal with |- filter ?p ?l = [] => destruct (filter p l) as [|x xs] eqn:F; [reflexivity|]; exfalso; assert (X : In x (filter p l)) by (rewrite F; now left) end.
      apply filter_In in X as [X Y]. apply (existsb_eqb_In _ String.eqb_eq) in Y. destruct Y as [<-|Y].
      - destruct X as [X|[X|[X|[X|X]]]]; try discriminate. apply in_app_or in X as [X|X]; [|contradiction]. unfold metrics in X.
        apply in_app_or in X as [X|X]; [apply given_standard in X; [|assumption]; cbn in X; intuition discriminate|apply (HO _ X); cbn; tauto].
      - apply (HF2 x Y). cbn [app]. exact X. }
    rewrite OV. cbn [existsb orb raise_if bind].
    destruct (fill_missing_rows_with_zeros _ _ _ _ _) as [filled|]; [|reflexivity]. cbn [bind].
    destruct (label_fun (par d) 0) as [lab|]; [|reflexivity]. cbn [bind]. destruct (mapM _ _) as [wc|]; [|reflexivity]. reflexivity.
  - unfold prepare_experiment. fold metrics. fold k.
    assert (EZ : match combine aids arms with [] => true | _ => false end = match rows with [] => true | _ => false end) by (rewrite EP; destruct rows; reflexivity).
    rewrite EZ. destruct (raise_if _ _) as [?|]; [|reflexivity]. cbn [bind].
    destruct (match tab with [] => _ | _ => _ end) as [fd|]; [|reflexivity]. cbn [bind].
    destruct (fill_missing_rows_with_zeros _ _ _ _ _) as [filled|]; [|reflexivity]. cbn [bind].
    destruct (label_fun (par d) 0) as [lab|]; [|reflexivity]. cbn [bind]. destruct (mapM _ _) as [wc|]; [|reflexivity]. cbn [bind].
    rewrite merged_rows_fst, <- EP. reflexivity.
Qed.

Lemma null_cell_false c : null_cell c = false <-> c <> CNull /\ c <> CNum NaN.
Proof. destruct c as [|z|x|x]; cbn; try destruct x; (split; [intros H; split; congruence|intros [H1 H2]; congruence]). Qed.

Lemma extra_nulls item arm asg aids arms (data : list (erow * arow)) :
  (forall nv : string * list cell, In nv (other_columns item arm asg) -> List.length (snd nv) = List.length aids) ->
  (forall a, In a (assigned_rows item arm asg aids arms) -> exists r, In (r, a) data) ->
  (check_no_nulls (map (fun j => map (fun x => nth j (a_extra (snd x)) CNull) data) (seq 0 (List.length (other_columns item arm asg)))) = Ok false ->
   forall (nv : string * list cell) c, In nv (other_columns item arm asg) -> In c (snd nv) -> c <> CNull /\ c <> CNum NaN).
Proof.
  intros HL H2. rewrite no_nulls_ok. set (oc := other_columns item arm asg) in *.
  assert (NE : forall i j, nth j (map (fun nv : string * list cell => nth i (snd nv) CNull) oc) CNull = nth i (snd (nth j oc ("", []))) CNull).
  { intros i j. rewrite <- (map_nth (fun nv : string * list cell => nth i (snd nv) CNull)). cbn [snd]. destruct i; reflexivity. }
  intros H nv c Hn Hc. apply null_cell_false. destruct (In_nth _ _ CNull Hc) as (i & Hi & <-). destruct (In_nth _ _ ("", []) Hn) as (j & Hj & <-).
    assert (HI : (i < List.length aids)%nat) by (rewrite <- (HL _ Hn); exact Hi).
    destruct (H2 (mkAR (nth i aids "") (nth i arms 0) (map (fun nv : string * list cell => nth i (snd nv) CNull) oc))) as (r & Hr).
    { unfold assigned_rows. apply in_map_iff. exists i. split; [reflexivity|]. apply in_seq. lia. }
    rewrite <- NE. eapply H.
    * apply in_map_iff. exists j. split; [reflexivity|]. apply in_seq. lia.
    * apply in_map_iff. exists (r, mkAR (nth i aids "") (nth i arms 0) (map (fun nv : string * list cell => nth i (snd nv) CNull) oc)). split; [reflexivity|exact Hr].
Qed.

Lemma extra_nulls_absent item arm asg aids arms (data : list (erow * arow)) :
  (forall nv : string * list cell, In nv (other_columns item arm asg) -> List.length (snd nv) = List.length aids) ->
  (forall r a, In (r, a) data -> In a (assigned_rows item arm asg aids arms)) ->
  (forall (nv : string * list cell) c, In nv (other_columns item arm asg) -> In c (snd nv) -> c <> CNull /\ c <> CNum NaN) ->
  check_no_nulls (map (fun j => map (fun x => nth j (a_extra (snd x)) CNull) data) (seq 0 (List.length (other_columns item arm asg)))) = Ok false.
Proof.
  intros HL H1 H. rewrite no_nulls_ok. set (oc := other_columns item arm asg) in *.
  assert (NE : forall i j, nth j (map (fun nv : string * list cell => nth i (snd nv) CNull) oc) CNull = nth i (snd (nth j oc ("", []))) CNull).
  { intros i j. rewrite <- (map_nth (fun nv : string * list cell => nth i (snd nv) CNull)). cbn [snd]. destruct i; reflexivity. }
  intros c x Hc Hx. apply in_map_iff in Hc as (j & <- & Hj). apply in_map_iff in Hx as ([r a] & <- & Hx). cbn [snd]. apply in_seq in Hj.
  specialize (H1 r a Hx). unfold assigned_rows in H1. apply in_map_iff in H1 as (i & <- & Hi). apply in_seq in Hi. cbn [a_extra]. fold oc. rewrite NE.
  assert (Hn : In (nth j oc ("", [])) oc) by (apply nth_In; lia). apply null_cell_false. apply (H _ _ Hn). apply nth_In. rewrite (HL _ Hn). lia.
Qed.

(** *** What the preparation of raw experiment data returns *)
Theorem c88_experiment_data_from_the_columns_read :
  forall std to_float to_int by_date binom outer perf asg d start item date arm inputs others neg alo concluded skip ids dates cols aids arms data,
    (forall l, Permutation (outer l) l) ->
    performance_reads std to_float perf item date inputs others ids dates cols ->
    assignment_reads std to_int asg item arm aids arms ->
    fresh_columns item arm asg (map fst (metric_sources inputs others)) alo ->
    experiment_entry std to_float to_int by_date binom outer perf asg d start item date arm inputs others neg alo concluded skip = Ok data ->
    prepare_experiment by_date binom outer (table_rows ids dates cols) (combine aids arms) d (map fst (metric_sources inputs others)) start concluded neg alo skip
      = Ok (map fst data) /\
    (forall r a, In (r, a) data -> exists i, (i < List.length aids)%nat /\ e_item r = nth i aids "" /\ e_arm r = nth i arms 0 /\
       a_extra a = map (fun nv : string * list cell => nth i (snd nv) CNull) (other_columns item arm asg)) /\
    (forall i, (i < List.length aids)%nat -> exists r a, In (r, a) data /\ e_item r = nth i aids "" /\ e_arm r = nth i arms 0 /\
       a_extra a = map (fun nv : string * list cell => nth i (snd nv) CNull) (other_columns item arm asg)) /\
    (In "no_nulls" skip \/ forall (nv : string * list cell) c, In nv (other_columns item arm asg) -> In c (snd nv) -> c <> CNull /\ c <> CNum NaN).
Proof.
  intros std to_float to_int by_date binom outer perf asg d start item date arm inputs others neg alo concluded skip ids dates cols aids arms data HO HP HA HF H.
  rewrite sources_names in HF |- * by apply HP.
  destruct (entry_steps std to_float to_int by_date binom outer perf asg d start item date arm inputs others neg alo concluded skip ids dates cols aids arms HP HA HF) as (steps & E1 & E2).
  rewrite E1 in H. apply bind_ok in H as (s & ES & H). cbv zeta in H. apply bind_ok in H as ([] & EV & H). assert (HD : merged_rows (assigned_rows item arm asg aids arms) s = data) by congruence. clear H. rewrite HD in EV.
  rewrite merged_view_no_overlap in EV. cbv zeta in EV. apply validate_with_cells in EV as [EV EN].
  rewrite ES in E2. cbn [bind] in E2. rewrite HD, EV in E2. cbn [bind] in E2.
  assert (IN : forall r a, In (r, a) data -> In a (assigned_rows item arm asg aids arms) /\ e_item r = a_item a /\ e_arm r = a_arm a) by (intros r a Hr; rewrite <- HD in Hr; now apply merged_rows_In in Hr).
  assert (LA : List.length arms = List.length aids /\ forall nv : string * list cell, In nv (other_columns item arm asg) -> List.length (snd nv) = List.length aids) by (destruct HA as (_ & _ & _ & _ & _ & L & L'); auto).
  assert (AL : forall a, In a (assigned_rows item arm asg aids arms) -> exists r, In (r, a) data).
  { intros a Ha. destruct (prepare_experiment_ok _ _ _ _ _ _ _ _ _ _ _ _ _ HO E2) as (_ & NP & _).
    assert (HC : exists r, In r (map fst data) /\ e_item r = a_item a).
    { destruct (table_rows ids dates cols) as [|r0 rest] eqn:ET; [congruence|]. rewrite <- ET in E2.
      destruct (prepare_experiment_covers _ _ _ _ _ _ _ _ _ _ _ _ _ HO E2 (a_item a) (o_date r0)) as (r & Hr & Er & _).
      - exists (a_arm a). rewrite <- (pairs_of_rows item arm asg) by apply LA. apply in_map_iff. eauto.
      - rewrite ET. exists r0. split; [now left|reflexivity].
      - eauto. }
    destruct HC as (r & Hr & Er). apply in_map_iff in Hr as ([r' b] & Er' & Hr). cbn in Er'. subst r'. destruct (IN _ _ Hr) as (_ & Eb & _).
    rewrite <- HD in Hr |- *. apply (merged_rows_all _ _ _ _ a Hr Ha). congruence. }
  split; [exact E2|]. split; [|split].
  - intros r a Hr. destruct (IN r a Hr) as (Ha & Ei & Ea). unfold assigned_rows in Ha. apply in_map_iff in Ha as (i & <- & Hi). apply in_seq in Hi. exists i. cbn in Ei, Ea |- *. repeat split; auto; lia.
  - intros i Hi. destruct (AL (mkAR (nth i aids "") (nth i arms 0) (map (fun nv : string * list cell => nth i (snd nv) CNull) (other_columns item arm asg)))) as (r & Hr).
    { unfold assigned_rows. apply in_map_iff. exists i. split; [reflexivity|]. apply in_seq. lia. }
    exists r. eexists. split; [exact Hr|]. destruct (IN _ _ Hr) as (_ & Ei & Ea). cbn in Ei, Ea |- *. auto.
  - destruct EN as [EN|EN]; [now left|right]. apply (extra_nulls item arm asg aids arms data); [apply LA|exact AL|exact EN].
Qed.

(** ... and when it succeeds *)
Theorem c88_experiment_data_accepted :
  forall std to_float to_int by_date binom outer perf asg d start item date arm inputs others neg alo concluded skip ids dates cols aids arms rows,
    performance_reads std to_float perf item date inputs others ids dates cols ->
    assignment_reads std to_int asg item arm aids arms ->
    fresh_columns item arm asg (map fst (metric_sources inputs others)) alo ->
    prepare_experiment by_date binom outer (table_rows ids dates cols) (combine aids arms) d (map fst (metric_sources inputs others)) start concluded neg alo skip
      = Ok rows ->
    (In "no_nulls" skip \/ forall (nv : string * list cell) c, In nv (other_columns item arm asg) -> In c (snd nv) -> c <> CNull /\ c <> CNum NaN) ->
    exists data, experiment_entry std to_float to_int by_date binom outer perf asg d start item date arm inputs others neg alo concluded skip = Ok data /\ map fst data = rows.
Proof.
  intros std to_float to_int by_date binom outer perf asg d start item date arm inputs others neg alo concluded skip ids dates cols aids arms rows HP HA HF H HN.
  rewrite sources_names in HF, H by apply HP.
  destruct (entry_steps std to_float to_int by_date binom outer perf asg d start item date arm inputs others neg alo concluded skip ids dates cols aids arms HP HA HF) as (steps & E1 & E2).
  rewrite E2 in H. apply bind_ok in H as (s & ES & H). cbv zeta in H. apply bind_ok in H as ([] & EV & H).
  exists (merged_rows (assigned_rows item arm asg aids arms) s). split; [|congruence].
  rewrite E1, ES. cbn [bind]. cbv zeta. rewrite merged_view_no_overlap. cbv zeta.
  match goal with |- context [validate_experiment_data ?a ?b ?c ?d ?e ?f ?g ?h ?i] => assert (X : validate_experiment_data a b c d e f g h i = Ok tt) end.
  { apply validate_with_cells. split; [exact EV|]. destruct HN as [HN|HN]; [now left|right]. apply (extra_nulls_absent item arm asg aids arms).
    - destruct HA as (_ & _ & _ & _ & _ & _ & L). exact L.
    - intros r a Hr. apply merged_rows_In in Hr. tauto.
    - exact HN. }
  rewrite X. reflexivity.
Qed.

(** names that both data sets use are rejected, if the validation needs the column *)
Lemma any_column_some bad col metrics : any_column bad col metrics = Ok false -> forall m, In m metrics -> col m <> None.
Proof.
  induction metrics as [|a l IH]; intros H m Hm; [destruct Hm|]. cbn in H. destruct (col a) eqn:E; [|discriminate].
  destruct (existsb bad l0); [discriminate|]. destruct Hm as [<-|Hm]; [congruence|auto].
Qed.

Theorem c88_name_clashes_are_rejected :
  forall std to_float to_int by_date binom outer perf asg d start item date arm inputs others neg alo concluded skip aids arms data n,
    List.length inputs = 5%nat -> assignment_reads std to_int asg item arm aids arms ->
    ~ In "all_metrics_are_finite" skip ->
    experiment_entry std to_float to_int by_date binom outer perf asg d start item date arm inputs others neg alo concluded skip = Ok data ->
    In n (columns (other_columns item arm asg)) -> n <> "date" /\ n <> "week_id" /\ ~ In n (map fst (metric_sources inputs others)).
Proof.
  intros std to_float to_int by_date binom outer perf asg d start item date arm inputs others neg alo concluded skip aids arms data n HL HA HS H Hn.
  destruct (assignment_standardized _ _ _ _ _ _ _ HA) as (EA & EX). rewrite sources_names by exact HL.
  unfold experiment_entry in H. rewrite EA in H. cbn [bind] in H. cbv zeta in H. rewrite EX in H.
  do 9 (apply bind_ok in H as (? & _ & H)). cbv zeta in H.
  set (left := "date" :: "week_id" :: "week_start" :: "time_period" :: (given_metrics inputs ++ others) ++ map snd alo) in *.
  set (overlap := filter (fun c => existsb (String.eqb c) ("treatment_assignment" :: map fst (other_columns item arm asg))) left) in *.
  assert (OV : forall c, In c left -> In c (columns (other_columns item arm asg)) -> existsb (String.eqb c) overlap = true).
  { intros c H1 H2. apply (existsb_eqb_In _ String.eqb_eq). apply filter_In. split; [exact H1|]. apply (existsb_eqb_In _ String.eqb_eq). right. exact H2. }
  apply bind_ok in H as (? & HR & H). apply raise_if_ok in HR. cbn [existsb] in HR. apply orb_false_iff in HR as [HR1 HR2]. apply orb_false_iff in HR2 as [HR2 _].
  split; [|split].
  - intros ->. rewrite (OV "date") in HR1; [discriminate|now left|exact Hn].
  - intros ->. rewrite (OV "week_id") in HR2; [discriminate|right; now left|exact Hn].
  - intros Hm. apply bind_ok in H as (u & HV & _). unfold validate_experiment_data in HV.
    do 6 (apply bind_ok in HV as (? & _ & HV)). apply bind_ok in HV as ([] & HV & _).
    unfold run_check in HV. apply bind_ok in HV as (b & HB & HV). destruct b.
    + cbn [negb] in HV. destruct (existsb (String.eqb "all_metrics_are_finite") skip) eqn:E; [apply (existsb_eqb_In _ String.eqb_eq) in E; contradiction|discriminate].
    + apply (any_column_some _ _ _ HB n Hm). cbn [merged_view v_col]. rewrite (OV n); [reflexivity| |exact Hn]. unfold left. do 4 right. apply in_or_app. now left.
Qed.

(** *** A complete call, and what a note in the assignment data does to it *)
Definition ex_performance : frame :=
  [("sku", [CStr "a"; CStr "a"; CStr "c"]); ("day", [CZ (- week_ns); CZ 0; CZ 0]); ("klicks", [CNum (Fin 1); CNum (Fin 2); CNum (Fin 5)])].
Definition ex_arms : list Z := map snd ex_assigned.
Definition ex_assignment (notes : list cell) : frame := [("sku", [CStr "a"; CStr "b"]); ("arm", map CZ ex_arms); ("note", notes)].
Definition plain_int (v : list cell) : result (list Z) := Ok (map instant_of v).
Definition ex_entry (notes : list cell) : result (list (erow * arow)) :=
  experiment_entry plain_parser (fun v => Ok v) plain_int Checks_Props.isort_by_date (fun _ _ => Ok (Fin 1)) (fun l => l)
    ex_performance (ex_assignment notes) ex_exp_design 0 "sku" "day" "arm" [Some "klicks"; None; None; None; None] [] ["clicks"] [] true ex_skip.

Lemma ex_performance_reads : performance_reads plain_parser (fun v => Ok v) ex_performance "sku" "day" [Some "klicks"; None; None; None; None] []
    ["a"; "a"; "c"] [- week_ns; 0; 0] [[Fin 1; Fin 2; Fin 5]].
Proof.
  split; [reflexivity|]. split; [repeat constructor; cbn; intuition discriminate|]. split; [constructor|]. split; [intros c []|].
  split; [eexists; split; [reflexivity|split; reflexivity]|]. split; [eexists; split; [reflexivity|split; reflexivity]|]. split; [reflexivity|].
  split; [constructor; [eexists; split; [reflexivity|split; reflexivity]|constructor]|].
  intros c cs z zs n [= <- <-] [= <- <-]. reflexivity.
Qed.
Lemma ex_assignment_reads notes : List.length notes = 2%nat ->
  assignment_reads plain_parser plain_int (ex_assignment notes) "sku" "arm" ["a"; "b"] ex_arms.
Proof.
  intros HL. split; [repeat constructor; cbn; intuition discriminate|]. split; [discriminate|]. split; [cbn; intros n [<-|[]]; split; discriminate|].
  split; [eexists; split; [reflexivity|split; reflexivity]|]. split; [|split; [reflexivity|]].
  - eexists. split; [reflexivity|]. split; [reflexivity|]. unfold plain_int. rewrite map_map. cbn [instant_of]. now rewrite map_id.
  - cbn. intros nv [<-|[]]. exact HL.
Qed.
Lemma ex_fresh notes : fresh_columns "sku" "arm" (ex_assignment notes) (map fst (metric_sources [Some "klicks"; None; None; None; None] [])) [].
Proof. split; [intros []|]. cbn. intros n [<-|[]]. intuition discriminate. Qed.

Example c88_example_accepted : exists data, ex_entry [CStr "new"; CStr "old"] = Ok data /\
  map (fun x => (e_item (fst x), e_date (fst x), e_period (fst x), e_cols (fst x))) data =
    [("a", - week_ns, Some "pretest", [("clicks", Fin 1)]); ("a", 0, Some "test", [("clicks", Fin 2)]);
     ("b", - week_ns, Some "pretest", [("clicks", Fin 0)]); ("b", 0, Some "test", [("clicks", Fin 0)])].
Proof.
  destruct c35_example as (_ & out & EO & EM).
  destruct (c88_experiment_data_accepted plain_parser (fun v => Ok v) plain_int Checks_Props.isort_by_date (fun _ _ => Ok (Fin 1)) (fun l => l)
    ex_performance (ex_assignment [CStr "new"; CStr "old"]) ex_exp_design 0 "sku" "day" "arm" [Some "klicks"; None; None; None; None] [] ["clicks"] [] true ex_skip
    ["a"; "a"; "c"] [- week_ns; 0; 0] [[Fin 1; Fin 2; Fin 5]] ["a"; "b"] ex_arms out) as (data & ED & EF).
  - exact ex_performance_reads.
  - apply ex_assignment_reads. reflexivity.
  - apply ex_fresh.
  - exact EO.
  - right. cbn. intros nv c [<-|[]] [<-|[<-|[]]]; split; discriminate.
  - exists data. split; [exact ED|]. subst out. rewrite map_map in EM.
    assert (X : map (fun x => let '(a, b, _, d, e) := x in (a, b, d, e)) (map (fun x : erow * arow => (e_item (fst x), e_date (fst x), e_week (fst x), e_period (fst x), e_cols (fst x))) data) =
       map (fun x => (e_item (fst x), e_date (fst x), e_period (fst x), e_cols (fst x))) data) by (rewrite map_map; reflexivity).
    rewrite <- X, EM. reflexivity.
Qed.

(** a missing note about an item makes the whole call fail, though no step reads the notes *)
Theorem c88_other_assignment_columns_do_not_matter_refuted :
  exists notes notes', List.length notes = List.length notes' /\ (exists data, ex_entry notes = Ok data) /\ forall data, ex_entry notes' <> Ok data.
Proof.
  exists [CStr "new"; CStr "old"], [CStr "new"; CNull]. split; [reflexivity|]. split.
  - destruct c88_example_accepted as (data & E & _). eauto.
  - intros data E. apply (c88_experiment_data_from_the_columns_read _ _ _ _ _ _ _ _ _ _ _ _ _ _ _ _ _ _ _
      ["a"; "a"; "c"] [- week_ns; 0; 0] [[Fin 1; Fin 2; Fin 5]] ["a"; "b"] ex_arms) in E.
    + destruct E as (_ & _ & _ & [E|E]); [cbn in E; intuition discriminate|].
      destruct (E ("note", [CStr "new"; CNull]) CNull) as [X _]; [cbn; auto|cbn; auto|congruence].
    + auto.
    + exact ex_performance_reads.
    + now apply ex_assignment_reads.
    + apply ex_fresh.
Qed.

Print Assumptions c88_experiment_data_from_the_columns_read.
Print Assumptions c88_experiment_data_accepted.
Print Assumptions c88_name_clashes_are_rejected.
Print Assumptions c88_other_assignment_columns_do_not_matter_refuted.
