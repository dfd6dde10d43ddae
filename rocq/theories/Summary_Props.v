(** C80: the summary of simulation analyses and its display. *)
From Coq Require Import ZArith Reals Lia String Ascii List Bool Permutation Sorting.Sorted.
From Flocq Require Import Core BinarySingleNaN.
Require Import Verif.Base Verif.Num Verif.Frame Verif.F64 Verif.ListLib Verif.Design_Model Verif.Design_Spec Verif.Design_Proofs Verif.Design_Text_Proofs Verif.Design_Yaml_Proofs Verif.Design_Props
  Verif.Stats_Model Verif.Simulation_Model Verif.Sim_State_Props Verif.Bars_Model Verif.Summary_Model.
Require Verif.Assign_Proofs.
Import ListNotations.
Open Scope string_scope.
Open Scope list_scope.

(** *** The columns *)
Definition design_columns : list string :=
  ["n_items_before_trimming"; "runtime_weeks"; "primary_metric"; "pretest_weeks"; "is_crossover"; "pre_trim_top_percentile";
   "pre_trim_bottom_percentile"; "post_trim_percentile"; "crossover_washout_weeks"; "alpha"; "power"; "n_items_after_pre_trim";
   "n_items_after_post_trim"].
Definition estimate_columns : list string := ["minimum_detectable_effect"; "relative_minimum_detectable_effect"].
Definition rate_columns : list string := ["simulated_false_positive_rate"; "simulated_power_at_minimum_detectable_effect"].
Definition check_columns : list string :=
  ["null_p_value_robustness_check_pass"; "power_robustness_check_pass"; "false_positive_rate_robustness_check_pass";
   "aa_point_estimate_robustness_check_pass"; "ab_point_estimate_robustness_check_pass"; "all_robustness_checks_pass"].
Definition table_columns : list string := design_columns ++ estimate_columns ++ rate_columns ++ check_columns.

Section Summary.
Context (frepr : f64 -> string).
Context (kstest : list num -> result num) (binomtest : Z -> Z -> f64 -> string -> result num)
        (ttest_1samp : list num -> num -> result num).
Notation summary := (summary_dict frepr kstest binomtest ttest_1samp).

Definition design_values (d : design) : list sval :=
  let p := par d in
  [VInt (n_before p); VInt (runtime p); VStr (metric p); VInt (pretest p); VBool (crossover p); VFloat (top p); VFloat (bottom p);
   VFloat (post p); of_opt VInt (washout p); VFloat (alpha p); VFloat (power p); VInt (n_pre d); VInt (n_post d)].

Lemma F2_length {A B} (R : A -> B -> Prop) l m : Forall2 R l m -> List.length l = List.length m.
Proof. induction 1; simpl; congruence. Qed.

Lemma summary_form s r : summary s = Ok r ->
  exists id fpr pw (cs : list (option bool)),
    design_id frepr (sm_design s) = Ok id /\ simulated_false_positive_rate s = Ok fpr /\ simulated_power s = Ok pw /\
    Forall2 (fun c b => c s = Ok b) (checks kstest binomtest ttest_1samp ++ [all_pass kstest binomtest ttest_1samp]) cs /\
    r = combine design_columns (design_values (sm_design s)) ++ ("design_id", VStr id) ::
        combine estimate_columns [of_opt VNum (sm_mde s); of_opt VNum (sm_rel s)] ++
        combine rate_columns [of_opt VNum fpr; of_opt VNum pw] ++ combine check_columns (map (of_opt VBool) cs).
Proof.
  unfold summary_dict. intros H. apply bind_ok in H as (id & EI & H). cbv zeta in H.
  unfold summary_metrics in H. cbn [add_metrics] in H. cbn [bind] in H.
  apply bind_ok in H as (v1 & E1 & H). apply bind_ok in E1 as (fpr & E1 & X). injection X as <-.
  apply bind_ok in H as (v2 & E2 & H). apply bind_ok in E2 as (pw & E2 & X). injection X as <-.
  apply bind_ok in H as (v3 & E3 & H). apply bind_ok in E3 as (c1 & E3 & X). injection X as <-.
  apply bind_ok in H as (v4 & E4 & H). apply bind_ok in E4 as (c2 & E4 & X). injection X as <-.
  apply bind_ok in H as (v5 & E5 & H). apply bind_ok in E5 as (c3 & E5 & X). injection X as <-.
  apply bind_ok in H as (v6 & E6 & H). apply bind_ok in E6 as (c4 & E6 & X). injection X as <-.
  apply bind_ok in H as (v7 & E7 & H). apply bind_ok in E7 as (c5 & E7 & X). injection X as <-.
  apply bind_ok in H as (v8 & E8 & H). apply bind_ok in E8 as (c6 & E8 & X). injection X as <-.
  exists id, fpr, pw, [c1; c2; c3; c4; c5; c6]. split; [exact EI|]. split; [exact E1|]. split; [exact E2|].
  split; [repeat constructor; assumption|]. cbn in H. injection H as <-. reflexivity.
Qed.

Lemma names_of_combine {A B} (l : list A) (m : list B) : List.length l = List.length m -> map fst (combine l m) = l.
Proof. revert m. induction l as [|a l IH]; intros [|b m] H; simpl in *; try discriminate; f_equal; auto. Qed.

Lemma dget_app c (r r' : record) : In c (map fst r) -> dget c (r ++ r') = dget c r.
Proof. induction r as [|[x w] r IH]; simpl; [tauto|]. destruct (String.eqb_spec c x); auto. intros [E|H]; [congruence|auto]. Qed.

Ltac pick := first [left; reflexivity | right; pick].

(** the summary has the parameters of the design without the salt, the id and the ten results; and it
    tells the design apart from every other, up to the salt *)
Theorem c80_summary_has_the_design_the_id_and_the_results :
  forall s r, summary s = Ok r ->
    map fst r = design_columns ++ "design_id" :: estimate_columns ++ rate_columns ++ check_columns /\
    (exists id, design_id frepr (sm_design s) = Ok id /\ dget "design_id" r = Some (VStr id)) /\
    dget "minimum_detectable_effect" r = Some (of_opt VNum (sm_mde s)) /\
    dget "relative_minimum_detectable_effect" r = Some (of_opt VNum (sm_rel s)) /\
    forall s' r', summary s' = Ok r' ->
      (set_salt (sm_design s) None = set_salt (sm_design s') None <-> forall c, In c design_columns -> dget c r = dget c r').
Proof.
  intros s r H. apply summary_form in H as (id & fpr & pw & cs & EI & _ & _ & FC & ->).
  assert (LC : List.length cs = 6%nat) by (apply F2_length in FC; rewrite <- FC; reflexivity).
  split. { rewrite map_app. cbn [map fst]. rewrite !map_app, !names_of_combine; try reflexivity. rewrite map_length, LC. reflexivity. }
  split; [exists id; split; [exact EI|reflexivity]|]. split; [reflexivity|]. split; [reflexivity|].
  intros s' r' H'. apply summary_form in H' as (id' & fpr' & pw' & cs' & _ & _ & _ & _ & ->).
  split.
  - intros E c Hc. rewrite !dget_app by exact Hc. f_equal. f_equal.
    destruct (sm_design s) as [p n1 n2], (sm_design s') as [p' n1' n2']. destruct p, p'. unfold set_salt in E. cbn in E.
    injection E as E1 E2 E3 E4 E5 E6 E7 E8 E9 E10 E11 E12 E13. subst. reflexivity.
  - intros E. destruct (sm_design s) as [p n1 n2], (sm_design s') as [p' n1' n2']. destruct p, p'. unfold set_salt. cbn.
    assert (G := fun c Hc => E c Hc). clear E.
    pose proof (G "n_items_before_trimming" ltac:(pick)) as A1. pose proof (G "runtime_weeks" ltac:(pick)) as A2.
    pose proof (G "primary_metric" ltac:(pick)) as A3. pose proof (G "pretest_weeks" ltac:(pick)) as A4.
    pose proof (G "is_crossover" ltac:(pick)) as A5. pose proof (G "pre_trim_top_percentile" ltac:(pick)) as A6.
    pose proof (G "pre_trim_bottom_percentile" ltac:(pick)) as A7. pose proof (G "post_trim_percentile" ltac:(pick)) as A8.
    pose proof (G "crossover_washout_weeks" ltac:(pick)) as A9. pose proof (G "alpha" ltac:(pick)) as A10.
    pose proof (G "power" ltac:(pick)) as A11. pose proof (G "n_items_after_pre_trim" ltac:(pick)) as A12.
    pose proof (G "n_items_after_post_trim" ltac:(pick)) as A13. clear G. cbn in *.
    assert (W : washout = washout0) by (destruct washout, washout0; cbn in A9; congruence).
    congruence.
Qed.

(** the estimates are shown exactly after an estimation, the other results exactly after a validation *)
Theorem c80_results_are_none_until_computed :
  forall (T : tdist) (argsort : list num -> list nat) (G : Type) (shuffle_of sample_of : G -> nat -> list nat * G)
    (arms_of : G -> nat -> list Z * G) (choice_of : G -> list Z -> Z * G)
    d f item week minimum period treat threshold s x h y r,
    mk_sim d f item week minimum period treat threshold = Ok s ->
    history T argsort shuffle_of sample_of arms_of choice_of (s, x) h y -> summary (fst y) = Ok r ->
    (forall c, In c estimate_columns -> (dget c r = Some VNone <-> ~ succeeded is_estimate h)) /\
    (forall c, In c (rate_columns ++ check_columns) -> (dget c r = Some VNone <-> ~ succeeded is_validate h)).
Proof.
  intros T argsort G shuffle_of sample_of arms_of choice_of d f item week minimum period treat threshold s x h y r HS HH H.
  destruct (c71_attributes_tell_what_has_succeeded _ _ _ _ _ _ _ _ _ _ _ _ _ _ _ _ _ _ HS HH) as (_ & A1 & A2 & _).
  destruct (c71_values_are_none_until_validated T argsort shuffle_of sample_of arms_of choice_of kstest binomtest ttest_1samp
    _ _ _ _ _ _ _ _ _ _ _ _ HS HH) as (V1 & V2 & V3).
  apply summary_form in H as (id & fpr & pw & cs & _ & EF & EP & FC & ->).
  assert (O : forall A (g : A -> sval) (o : option A), (forall a, g a <> VNone) -> (Some (of_opt g o) = Some VNone <-> o = None)).
  { intros A g o N. destruct o as [a|]; cbn; split; intros X; [exfalso; injection X as X; now apply N in X|discriminate|reflexivity|reflexivity]. }
  assert (NO : forall (o : option num), o = None <-> ~ (o <> None)).
  { intros [a|]; split; intros X; [discriminate|exfalso; apply X; discriminate|congruence|reflexivity]. }
  split.
  - intros c [<-|[<-|[]]]; cbn; rewrite O by discriminate; rewrite NO; [now rewrite A1|now rewrite A2].
  - inversion FC as [|? ? ? ? F1 FC1]; subst. inversion FC1 as [|? ? ? ? F2 FC2]; subst. inversion FC2 as [|? ? ? ? F3 FC3]; subst.
    inversion FC3 as [|? ? ? ? F4 FC4]; subst. inversion FC4 as [|? ? ? ? F5 FC5]; subst. inversion FC5 as [|? ? ? ? F6 FC6]; subst.
    inversion FC6; subst. clear FC FC1 FC2 FC3 FC4 FC5 FC6.
    assert (K : forall A (v : result (option A)) o P, v = Ok o -> (v = Ok None <-> P) -> (o = None <-> P)).
    { intros A v o P E Q. rewrite <- Q, E. split; congruence. }
    intros c Hc. cbn in Hc.
    destruct Hc as [<-|[<-|[<-|[<-|[<-|[<-|[<-|[<-|[]]]]]]]]]; cbn; rewrite O by discriminate.
    + apply (K _ _ _ _ EF). apply V1. pick.
    + apply (K _ _ _ _ EP). apply V1. pick.
    + apply (K _ _ _ _ F1). apply V2. pick.
    + apply (K _ _ _ _ F2). apply V2. pick.
    + apply (K _ _ _ _ F3). apply V2. pick.
    + apply (K _ _ _ _ F4). apply V2. pick.
    + apply (K _ _ _ _ F5). apply V2. pick.
    + apply (K _ _ _ _ F6). exact V3.
Qed.

(** before a validation the summary of a constructed design never fails *)
Theorem c80_summary_without_validation_never_fails :
  forall p s, mk_design p = Ok (sm_design s) -> sm_aa s = None -> exists r, summary s = Ok r.
Proof.
  intros p s HD HA. unfold summary_dict, design_id. rewrite (mk_design_set_salt _ _ None HD). cbn [bind].
  unfold summary_metrics. cbn [add_metrics bind].
  assert (C : forall v, In v (p_values kstest binomtest ttest_1samp) -> check_pass v s = Ok None) by (intros v Hv; now apply (check_none kstest binomtest ttest_1samp)).
  unfold simulated_false_positive_rate, simulated_power. rewrite HA. cbn [bind].
  unfold all_robustness_checks_pass, null_p_value_robustness_check_pass, power_robustness_check_pass, false_positive_rate_robustness_check_pass,
    aa_point_estimate_robustness_check_pass, ab_point_estimate_robustness_check_pass. cbn [mapM].
  rewrite !C by (cbn; tauto). cbn [bind of_opt existsb orb]. eauto.
Qed.

(** *** The table *)
(** what "sorted" means: missing values last, values of the same kind in order *)
Definition missing (v : sval) : bool :=
  match v with VNone => true | VFloat x => is_nan x | VNum x => nis_nan x | _ => false end.
Definition before (v w : sval) : bool :=
  match missing v, missing w with
  | true, _ => false
  | false, true => true
  | false, false =>
      match v, w with
      | VInt x, VInt y => Z.ltb x y
      | VFloat x, VFloat y => fltb x y
      | VNum x, VNum y => nltb x y
      | VStr x, VStr y => negb (sleb y x)
      | VBool x, VBool y => andb (negb x) y
      | _, _ => false
      end
  end.
(** [idx] is a sorting permutation of [keys] *)
Definition sorting (keys : list sval) (idx : list nat) : Prop :=
  Permutation idx (seq 0 (List.length keys)) /\
  StronglySorted (fun i j => before (nth j keys VNone) (nth i keys VNone) = false) idx.

(** the row of an analysis *)
Definition row_of (s : sim) (r : row) : Prop :=
  exists rec, summary s = Ok rec /\ dget "design_id" rec = Some (fst r) /\ map fst (snd r) = table_columns /\
    forall c, In c table_columns -> dget c (snd r) = dget c rec.

Lemma index_row_of s rec : summary s = Ok rec -> exists r, index_row rec = Ok r /\ row_of s r.
Proof.
  intros H. assert (H' := H). apply summary_form in H' as (id & fpr & pw & cs & EI & _ & _ & FC & ->).
  assert (LC : List.length cs = 6%nat) by (apply F2_length in FC; rewrite <- FC; reflexivity).
  do 7 (destruct cs as [|? cs]; try discriminate LC). clear LC FC.
  eexists. split; [reflexivity|]. eexists. split; [exact H|]. split; [reflexivity|]. split; [reflexivity|].
  intros c Hc. cbn in Hc. repeat (destruct Hc as [<-|Hc]; [reflexivity|]). destruct Hc.
Qed.

Theorem c80_table_has_one_sorted_row_per_analysis :
  forall order analyses sort_by rows,
    make_analysis_summary_dataframe frepr kstest binomtest ttest_1samp order analyses sort_by = Ok rows ->
    exists unsorted keys, Forall2 row_of analyses unsorted /\ Forall2 (fun r k => sort_key sort_by r = Some k) unsorted keys /\
      (sorting keys (order keys) ->
        Permutation rows unsorted /\
        StronglySorted (fun r r' => exists k k', sort_key sort_by r = Some k /\ sort_key sort_by r' = Some k' /\ before k' k = false) rows).
Proof.
  unfold make_analysis_summary_dataframe. intros order analyses sort_by rows H.
  apply bind_ok in H as (recs & E1 & H). apply bind_ok in H as ([] & E2 & H). apply bind_ok in H as (uns & E3 & H).
  apply bind_ok in H as (keys & E4 & H). injection H as <-.
  apply mapM_ok in E1. apply mapM_ok in E3. apply mapM_ok in E4. exists uns, keys.
  assert (F1 : Forall2 row_of analyses uns).
  { clear E2 E4. revert uns E3. induction E1 as [|s rec l l' E EE IH]; intros uns F; inversion F; subst; constructor; auto.
    destruct (index_row_of s rec E) as (r & Er & Hr). congruence. }
  assert (F2 : Forall2 (fun r k => sort_key sort_by r = Some k) uns keys).
  { clear - E4. induction E4 as [|r k l l' E EE IH]; constructor; auto. destruct (sort_key sort_by r); congruence. }
  split; auto. split; auto. intros [P S].
  assert (L := F2_length _ _ _ F2). split.
  - apply (Permutation_trans (l' := map (fun i => nth i uns (VNone, [])) (seq 0 (List.length keys)))); [now apply Permutation_map|].
    rewrite <- L. assert (X := Assign_Proofs.map_nth_seq ((VNone, []) : row) uns). fold row. cbv beta in X. 
    apply (Permutation_trans (l' := uns)); [|apply Permutation_refl]. apply Permutation_sym. rewrite <- X at 1. apply Permutation_refl.
  - assert (B : forall i, In i (order keys) -> (i < List.length uns)%nat).
    { intros i Hi. apply (Permutation_in _ P) in Hi. apply in_seq in Hi. lia. }
    clear P. induction S as [|i l S IH Fl]; cbn [map]; constructor; [apply IH; intros; apply B; now right|].
    apply Forall_map. apply Forall_forall. intros j Hj. rewrite Forall_forall in Fl. specialize (Fl j Hj).
    exists (nth i keys VNone), (nth j keys VNone).
    assert (N : forall i, (i < List.length uns)%nat -> sort_key sort_by (nth i uns (VNone, [])) = Some (nth i keys VNone)).
    { clear - F2. induction F2 as [|r k l l' E EE IH]; intros [|n] Hn; simpl in *; try lia; auto. apply IH. lia. }
    split; [apply N, B; now left|]. split; [apply N, B; now right|exact Fl].
Qed.

(** it fails for no analysis, for an analysis without summary and for an unknown column *)
Theorem c80_table_fails_iff :
  forall order analyses sort_by,
    (exists e, make_analysis_summary_dataframe frepr kstest binomtest ttest_1samp order analyses sort_by = Err e) <->
    analyses = [] \/ (exists s e, In s analyses /\ summary s = Err e) \/ ~ In sort_by ("design_id" :: table_columns).
Proof.
  intros order analyses sort_by. unfold make_analysis_summary_dataframe.
  assert (SK : forall s r, row_of s r -> (exists k, sort_key sort_by r = Some k) <-> In sort_by ("design_id" :: table_columns)).
  { intros s r (rec & _ & _ & EC & _). unfold sort_key. destruct (String.eqb_spec sort_by "design_id") as [->|N].
    - split; intros; [now left|eauto].
    - assert (D : (exists k, dget sort_by (snd r) = Some k) <-> In sort_by (map fst (snd r))).
      { generalize (snd r). clear. induction r as [|[x w] r IH]; simpl; [split; [intros [? ?]; discriminate|tauto]|].
        destruct (String.eqb_spec sort_by x) as [->|N]; [split; eauto|]. rewrite IH. split; auto. intros [?|?]; [congruence|auto]. }
      rewrite D, EC. split; [intros; now right|intros [X|X]; [congruence|exact X]]. }
  destruct (mapM summary analyses) as [recs|e] eqn:E1; cbn [bind].
  - apply mapM_ok in E1.
    assert (X : exists uns, mapM index_row recs = Ok uns /\ Forall2 row_of analyses uns).
    { clear SK. induction E1 as [|s rec l l' E EE (uns & IH1 & IH2)]; [exists []; split; [reflexivity|constructor]|].
      destruct (index_row_of s rec E) as (r & Er & Hr). exists (r :: uns). split; [cbn [mapM]; now rewrite Er, IH1|constructor; auto]. }
    destruct X as (uns & EU & FU).
    assert (NS : ~ exists s e, In s analyses /\ summary s = Err e).
    { intros (s & e & Hs & Es). clear - E1 Hs Es. induction E1 as [|a b l l' E EE IH]; [destruct Hs|]. destruct Hs as [->|Hs]; [congruence|auto]. }
    destruct recs as [|rec recs].
    + inversion E1; subst. cbn. split; [auto|eauto].
    + destruct analyses as [|s0 analyses]; [inversion E1|]. cbn [raise_if bind]. rewrite EU. cbn [bind].
      destruct (mapM (fun r => match sort_key sort_by r with Some v => Ok v | None => Err (KeyError sort_by) end) uns) as [keys|e] eqn:EK; cbn [bind].
      * split; [intros [e X]; discriminate|]. intros [X|[X|X]]; [discriminate|contradiction|]. exfalso. apply X.
        apply mapM_ok in EK. inversion FU; subst. inversion EK as [|? k ? ? Ek _]; subst. eapply SK; eauto.
        destruct (sort_key sort_by y) eqn:Q; [eauto|discriminate].
      * split; [intros _; right; right|eauto]. intros I.
        assert (AL : forall r, In r uns -> exists k, sort_key sort_by r = Some k).
        { intros r Hr. clear - FU SK I Hr. induction FU as [|s r' l l' E EE IH]; [destruct Hr|]. destruct Hr as [->|Hr]; [now apply (SK s)|auto]. }
        clear - EK AL. revert e EK. induction uns as [|r uns IH]; intros e EK; cbn [mapM] in EK; [discriminate|].
        destruct (AL r (or_introl eq_refl)) as (k & Hk). rewrite Hk in EK.
        destruct (mapM _ uns) as [ks|e'] eqn:E; [discriminate|]. apply (IH (fun r H => AL r (or_intror H)) e' eq_refl).
  - split; [intros _; right; left|eauto].
    clear SK. revert e E1. induction analyses as [|s l IH]; intros e E1; cbn [mapM] in E1; [discriminate|].
    destruct (summary s) as [b|e'] eqn:E; [|exists s, e'; split; [now left|exact E]].
    destruct (mapM summary l) as [bs|e''] eqn:E'; [discriminate|]. destruct (IH e'' eq_refl) as (s' & e3 & Hs & Es). exists s', e3. split; [now right|exact Es].
Qed.
End Summary.

(** *** The display *)
(** two values that are shown as constant: equal, up to the sign of a zero *)
Definition same (v w : sval) : Prop := v = w \/ exists s s', v = VFloat (B754_zero s) /\ w = VFloat (B754_zero s').

Lemma feqb_iff (x y : f64) : feqb x y = true <-> is_nan x = false /\ x = y \/ exists s s', x = B754_zero s /\ y = B754_zero s'.
Proof.
  unfold feqb. split.
  - intros H. destruct (is_finite x) eqn:FX, (is_finite y) eqn:FY.
    + rewrite Beqb_correct in H by assumption.
      destruct (Req_bool_spec (B2R x) (B2R y)) as [E|]; [|discriminate].
      destruct x as [sx|sx| |sx mx ex Hx]; try discriminate FX; destruct y as [sy|sy| |sy my ey Hy]; try discriminate FY.
      * right. eauto.
      * exfalso. cbn [B2R] in E. symmetry in E. apply eq_0_F2R in E. destruct sy; discriminate E.
      * exfalso. cbn [B2R] in E. apply eq_0_F2R in E. destruct sx; discriminate E.
      * left. split; [reflexivity|]. apply B2R_inj; auto.
    + destruct y; try discriminate FY; destruct x; try discriminate FX; try destruct s; try destruct s0; discriminate H.
    + destruct y; try discriminate FY; destruct x; try discriminate FX; try destruct s; try destruct s0; discriminate H.
    + destruct y as [|[]| |]; try discriminate FY; destruct x as [|[]| |]; try discriminate FX; try discriminate H; left; split; reflexivity.
  - intros [[N <-]|(s & s' & -> & ->)]; [|reflexivity].
    destruct (is_finite x) eqn:FX; [rewrite Beqb_correct by assumption; now apply Req_bool_true|].
    destruct x as [|[]| |]; try discriminate FX; try discriminate N; reflexivity.
Qed.

Lemma same_value_iff v w : same_value v w = true <-> same v w.
Proof.
  unfold same. destruct v, w; cbn [same_value]; try (split; [discriminate|intros [E|(s1 & s2 & E1 & E2)]; [discriminate|discriminate]]).
  - split; auto.
  - rewrite Z.eqb_eq. split; [intros ->; now left|intros [E|(s1 & s2 & E1 & E2)]; [congruence|discriminate]].
  - rewrite orb_true_iff, andb_true_iff, feqb_iff. split.
    + intros [[[_ ->]|(s & s' & -> & ->)]|[N N']]; [now left|right; eauto|left].
      destruct x; try discriminate N. destruct x0; try discriminate N'. reflexivity.
    + intros [E|(s & s' & E & E')].
      * injection E as <-. destruct (is_nan x) eqn:N; [now right|left; left; auto].
      * left. right. exists s, s'. split; congruence.
  - assert (X : orb (neqb x x0) (andb (nis_nan x) (nis_nan x0)) = true <-> x = x0).
    { rewrite orb_true_iff, andb_true_iff. split.
      - intros [E|[N N']]; [|destruct x; try discriminate N; destruct x0; try discriminate N'; reflexivity].
        destruct x, x0; try discriminate E; try reflexivity. apply neqb_fin in E. now subst.
      - intros <-. destruct x; cbn; auto. left. now apply neqb_fin. }
    rewrite X. split; [intros ->; now left|intros [E|(s1 & s2 & E1 & E2)]; [congruence|discriminate]].
  - rewrite String.eqb_eq. split; [intros ->; now left|intros [E|(s1 & s2 & E1 & E2)]; [congruence|discriminate]].
  - rewrite Bool.eqb_true_iff. split; [intros ->; now left|intros [E|(s1 & s2 & E1 & E2)]; [congruence|discriminate]].
Qed.

Lemma same_refl v : same v v. Proof. now left. Qed.
Lemma same_trans u v w : same u v -> same v w -> same u w.
Proof. intros [->|(s & s' & -> & ->)]; auto. intros [<-|(s2 & s3 & E & ->)]; right; eauto. Qed.
Lemma same_sym u v : same u v -> same v u.
Proof. intros [->|(s & s' & -> & ->)]; [now left|right; eauto]. Qed.

Lemma distinct_in l v : In v (distinct_values l) -> In v l.
Proof. revert v. induction l as [|a l IH]; simpl; auto. intros v [->|H]; auto. apply filter_In in H as [H _]. auto. Qed.
Lemma distinct_covers l v : In v l -> exists w, In w (distinct_values l) /\ same w v.
Proof.
  induction l as [|a l IH]; simpl; [tauto|]. intros [->|H]; [exists v; split; [now left|apply same_refl]|].
  destruct (IH H) as (w & Hw & S). destruct (same_value a w) eqn:E.
  - exists a. split; [now left|]. apply same_value_iff in E. eapply same_trans; eauto.
  - exists w. split; auto. right. apply filter_In. split; auto. now rewrite E.
Qed.
Lemma distinct_one v l : (exists w, distinct_values (v :: l) = [w]) <-> forall x, In x l -> same v x.
Proof.
  simpl. split.
  - intros (w & E) x Hx. injection E as _ E. apply distinct_covers in Hx as (u & Hu & S).
    destruct (same_value v u) eqn:Q; [apply same_value_iff in Q; eapply same_trans; eauto|].
    exfalso. assert (I : In u (filter (fun w => negb (same_value v w)) (distinct_values l))) by (apply filter_In; split; auto; now rewrite Q).
    rewrite E in I. destruct I.
  - intros H. exists v. f_equal. destruct (filter _ _) as [|u r] eqn:E; auto. exfalso.
    assert (I : In u (filter (fun w => negb (same_value v w)) (distinct_values l))) by (rewrite E; now left).
    apply filter_In in I as [I Q]. apply distinct_in in I. apply H, same_value_iff in I. now rewrite I in Q.
Qed.

(** a column that has the same value in every row, with the value of the first *)
Definition constant_in (rows : list row) (c : string) (v : sval) : Prop :=
  exists r0 rest, rows = r0 :: rest /\ dget c (snd r0) = Some v /\
    forall r, In r rest -> exists w, dget c (snd r) = Some w /\ same v w.

Lemma dget_some k (r : record) : In k (map fst r) -> exists v, dget k r = Some v.
Proof.
  induction r as [|[x w] r IH]; simpl; [tauto|]. destruct (String.eqb_spec k x) as [->|N]; [eauto|]. intros [E|H]; [congruence|auto].
Qed.
Lemma column_values_ok c (rows : list row) : (forall r, In r rows -> In c (map fst (snd r))) ->
  exists vs, column_values c rows = Ok vs /\ Forall2 (fun r v => dget c (snd r) = Some v) rows vs.
Proof.
  unfold column_values. induction rows as [|r rows IH]; intros H; [exists []; split; [reflexivity|constructor]|].
  destruct IH as (vs & E & F); [intros; apply H; now right|]. destruct (dget_some c (snd r) (H r (or_introl eq_refl))) as (v & Hv).
  exists (v :: vs). split; [cbn [mapM]; now rewrite Hv, E|constructor; auto].
Qed.

Lemma constant_columns_ok cols (rows : list row) : NoDup cols -> (forall c r, In c cols -> In r rows -> In c (map fst (snd r))) ->
  exists cs, constant_columns cols rows = Ok cs /\ NoDup (map fst cs) /\ (forall c v, In (c, v) cs <-> In c cols /\ constant_in rows c v) /\
    StronglySorted (fun c c' => exists l1 l2 l3, cols = l1 ++ c :: l2 ++ c' :: l3) (map fst cs).
Proof.
  intros ND. induction cols as [|c cols IH]; intros H.
  - exists []. split; [reflexivity|]. split; [constructor|]. split; [intros; simpl; tauto|constructor].
  - inversion ND as [|? ? NI ND']; subst. destruct IH as (cs & E & NC & IC & SC); auto. { intros; apply H; auto. now right. }
    destruct (column_values_ok c rows) as (vs & EV & FV). { intros; apply H; auto. now left. }
    cbn [constant_columns]. rewrite EV, E. cbn [bind].
    assert (LIFT : StronglySorted (fun c0 c' => exists l1 l2 l3, c :: cols = l1 ++ c0 :: l2 ++ c' :: l3) (map fst cs)).
    { clear - SC. induction SC as [|a l S IH F]; constructor; auto. eapply Forall_impl; [|exact F]. intros b (l1 & l2 & l3 & ->). exists (c :: l1), l2, l3. reflexivity. }
    assert (CASE : (exists v vs', vs = v :: vs' /\ (exists w, distinct_values vs = [w]) /\ constant_in rows c v) \/
                   ((forall v, ~ constant_in rows c v) /\ forall v vs', vs = v :: vs' -> ~ exists w, distinct_values vs = [w])).
    { destruct rows as [|r0 rest]; inversion FV as [|? v ? vs' F1 F2]; subst.
      - right. split; [intros v (r0 & rest & X & _); discriminate|discriminate].
      - assert (Q : (forall x, In x vs' -> same v x) <-> (forall r, In r rest -> exists w, dget c (snd r) = Some w /\ same v w)).
        { clear - F2. induction F2 as [|r x l l' F FF IH]; simpl; [split; tauto|]. split.
          - intros X r' [<-|Hr]; [exists x; split; auto|]. apply IH; auto.
          - intros X x' [<-|Hx]; [destruct (X r (or_introl eq_refl)) as (w & Hw & S); congruence|]. apply IH; auto. }
        destruct (distinct_values (v :: vs')) as [|w [|w' ws]] eqn:D; [discriminate D| |].
        + left. exists v, vs'. split; auto. split; [eauto|]. exists r0, rest. split; auto. split; auto. apply Q. apply distinct_one. eauto.
        + right. assert (NS : ~ (forall x, In x vs' -> same v x)). { intros X. apply distinct_one in X as (u & X). congruence. }
          split; [|intros v1 vs1 _ (u & X); discriminate]. intros v1 (r1 & rest1 & X & G & A). injection X as <- <-.
          assert (v1 = v) by congruence. subst. apply NS. now apply Q. }
    destruct CASE as [(v & vs' & -> & (w & D) & CI)|(NCI & ND1)].
    + rewrite D. exists ((c, v) :: cs). split; [reflexivity|]. split.
      { simpl. constructor; auto. intros X. apply in_map_iff in X as ([c1 v1] & X & I). cbn in X. subst c1. apply IC in I. tauto. }
      split.
      { intros c1 v1. simpl. split.
        - intros [X|X]; [injection X as <- <-; auto|apply IC in X; tauto].
        - intros [[<-|Hc] C1]; [left|right; now apply IC]. destruct CI as (r0 & rest & -> & G & _), C1 as (r1 & rest1 & X & G1 & _).
          injection X as <- <-. congruence. }
      simpl. constructor; auto. apply Forall_forall. intros c1 H1. apply in_map_iff in H1 as ([c2 v2] & X & I). cbn in X. subst c2.
      apply IC in I as [I _]. apply in_split in I as (l2 & l3 & ->). exists [], l2, l3. reflexivity.
    + exists cs. split.
      { destruct (distinct_values vs) as [|w [|w' ws]] eqn:D; try reflexivity. destruct vs as [|v vs']; [discriminate D|].
        exfalso. apply (ND1 v vs' eq_refl). now exists w. }
      split; auto. split; auto. intros c1 v1. rewrite IC. split; [intros [? ?]; split; auto; now right|].
      intros [[<-|?] C1]; auto. now apply NCI in C1.
Qed.

(** the columns hidden on request are the results of the validation *)
Theorem c80_hidden_columns_are_the_validation_results :
  forall c, In c table_columns -> (is_validation_column c = true <-> In c (rate_columns ++ check_columns)).
Proof.
  intros c Hc. destruct (in_dec string_dec c (rate_columns ++ check_columns)) as [I|NI].
  - split; auto. intros _. cbn in I. repeat (destruct I as [<-|I]; [reflexivity|]). destruct I.
  - split; [|contradiction]. intros E. exfalso. unfold table_columns in Hc. rewrite app_assoc in Hc. apply in_app_or in Hc as [I|I]; auto.
    cbn in I. repeat (destruct I as [<-|I]; [discriminate E|]). destruct I.
Qed.

(** no two columns have the same title *)
Lemma titles_distinct : NoDup (map clean_name table_columns).
Proof.
  assert (X : (fix nd (l : list string) := match l with [] => true | a :: r => andb (negb (existsb (String.eqb a) r)) (nd r) end)
    (map clean_name table_columns) = true) by (vm_compute; reflexivity).
  revert X. generalize (map clean_name table_columns). induction l as [|a l IH]; intros H; constructor.
  - intros I. apply andb_true_iff in H as [H _]. apply negb_true_iff in H. assert (existsb (String.eqb a) l = true); [|congruence].
    apply existsb_exists. exists a. split; auto. apply String.eqb_refl.
  - apply IH. now apply andb_true_iff in H as [_ H].
Qed.
Lemma titles_injective c c' : In c table_columns -> In c' table_columns -> clean_name c = clean_name c' -> c = c'.
Proof.
  generalize titles_distinct. generalize table_columns. induction l as [|a l IH]; simpl; [tauto|]. intros ND H1 H2 E. inversion ND as [|? ? NI ND']; subst.
  destruct H1 as [->|H1], H2 as [->|H2]; auto.
  - exfalso. apply NI. rewrite E. now apply in_map.
  - exfalso. apply NI. rewrite <- E. now apply in_map.
Qed.

Lemma is_in_iff l c : is_in l c = true <-> In c l.
Proof. unfold is_in. rewrite existsb_exists. split; [intros (x & H & E); apply String.eqb_eq in E; now subst|intros H; exists c; split; auto; apply String.eqb_refl]. Qed.

Lemma filter_fst (f : string -> bool) (r : record) : map fst (filter (fun kv => f (fst kv)) r) = filter f (map fst r).
Proof. induction r as [|[k v] r IH]; simpl; auto. destruct (f k); simpl; now rewrite IH. Qed.
Lemma dget_filter f k (r : record) : f k = true -> dget k (filter (fun kv => f (fst kv)) r) = dget k r.
Proof.
  intros H. induction r as [|[x w] r IH]; simpl; auto. destruct (String.eqb_spec k x) as [->|N].
  - rewrite H. simpl. now rewrite String.eqb_refl.
  - destruct (f x); simpl; auto. destruct (String.eqb_spec k x); [congruence|auto].
Qed.
Lemma dget_clean c (r : record) : incl (map fst r) table_columns -> In c table_columns ->
  dget (clean_name c) (map (fun kv => (clean_name (fst kv), snd kv)) r) = dget c r.
Proof.
  intros I Hc. induction r as [|[x w] r IH]; simpl; auto.
  assert (Hx : In x table_columns) by (apply I; now left).
  destruct (String.eqb_spec c x) as [->|N]; [now rewrite String.eqb_refl|].
  destruct (String.eqb_spec (clean_name c) (clean_name x)) as [E|_]; [exfalso; apply N; now apply titles_injective|].
  apply IH. intros y Hy. apply I. now right.
Qed.

Lemma format_form text rows wv : (forall r, In r rows -> map fst (snd r) = table_columns) ->
  exists constants disp, format_summary text rows wv = Ok disp /\
    NoDup (map fst constants) /\ (forall c v, In (c, v) constants <-> In c design_attributes /\ constant_in rows c v) /\
    StronglySorted (fun c c' => exists l1 l2 l3, design_attributes = l1 ++ c :: l2 ++ c' :: l3) (map fst constants) /\
    let shown c := andb (orb wv (negb (is_validation_column c))) (negb (is_in (map fst constants) c)) in
    d_caption disp = ("Analysis results of experiment designs where the following design attributes are constant for all designs: " ++
      join (map (fun cv => fst cv ++ " = " ++ text (snd cv)) constants))%string /\
    d_rows disp = map (fun r => (fst r, map (fun kv => (clean_name (fst kv), snd kv)) (filter (fun kv => shown (fst kv)) (snd r)))) rows /\
    d_percent disp = filter (is_in (columns_of (d_rows disp))) percent_columns /\
    d_checks disp = filter (ends_with " Pass") (columns_of (d_rows disp)).
Proof.
  intros HR. unfold format_summary. cbv zeta.
  set (rows1 := if wv then rows else drop_columns is_validation_column rows).
  set (keep := fun c => orb wv (negb (is_validation_column c))).
  assert (R1 : rows1 = map (fun r => (fst r, filter (fun kv => keep (fst kv)) (snd r))) rows).
  { unfold rows1, keep. destruct wv; cbn [orb]; [|reflexivity].
    rewrite <- (map_id rows) at 1. apply map_ext. intros [i r]. cbn. f_equal. symmetry.
    induction r as [|kv r IH]; simpl; [reflexivity|]. now rewrite IH. }
  assert (KA : forall c, In c design_attributes -> keep c = true /\ In c table_columns).
  { intros c Hc. unfold design_attributes in Hc. cbn [In] in Hc. unfold keep.
    repeat (destruct Hc as [<-|Hc]; [split; [destruct wv; reflexivity|cbn; tauto]|]). destruct Hc. }
  assert (NDA : NoDup design_attributes) by (repeat constructor; cbn; intuition congruence).
  destruct (constant_columns_ok design_attributes rows1 NDA) as (cs & EC & NC & IC & SC).
  { intros c r Hc Hr. rewrite R1 in Hr. apply in_map_iff in Hr as (r' & <- & Hr'). cbn [snd].
    rewrite (filter_fst keep), (HR r' Hr'). apply filter_In. split; now apply KA. }
  exists cs. unfold extract_constants.
  match goal with |- context [constant_columns design_attributes ?q] => change q with rows1 end. rewrite EC. cbn [bind fst snd]. eexists. split; [reflexivity|]. cbn [d_caption d_rows d_percent d_checks].
  split; [exact NC|]. split.
  { intros c v. rewrite IC. split; intros [Hc CI]; (split; [exact Hc|]).
    - destruct CI as (r0 & rest & E & G & A). rewrite R1 in E. destruct rows as [|r rows']; [discriminate E|]. injection E as <- <-.
      exists r, rows'. split; auto. cbn [snd] in G. rewrite (dget_filter keep) in G by now apply KA. split; auto.
      intros r' Hr'. destruct (A (fst r', filter (fun kv => keep (fst kv)) (snd r'))) as (w & G' & S).
      { apply in_map_iff. exists r'. auto. } cbn [snd] in G'. rewrite (dget_filter keep) in G' by now apply KA. eauto.
    - destruct CI as (r0 & rest & -> & G & A). rewrite R1. exists (fst r0, filter (fun kv => keep (fst kv)) (snd r0)). eexists. split; [reflexivity|].
      cbn [snd]. rewrite (dget_filter keep) by now apply KA. split; auto.
      intros r' Hr'. apply in_map_iff in Hr' as (r1 & <- & H1). cbn [snd]. rewrite (dget_filter keep) by now apply KA. auto. }
  split; [exact SC|]. split; [reflexivity|]. split; [|auto].
  rewrite R1. unfold drop_columns. rewrite !map_map. apply map_ext. intros [i r]. cbn [fst snd]. f_equal. f_equal.
  induction r as [|kv r IH]; simpl; auto. fold (keep (fst kv)). destruct (keep (fst kv)); simpl; [|exact IH].
  destruct (is_in (map fst cs) (fst kv)); simpl; now rewrite IH.
Qed.

(** The display loses nothing: every value of every row is shown under its own title, or is one of the constants of the caption,
    or is a validation result hidden on request. *)
Theorem c80_display_loses_nothing :
  forall text rows with_validation disp,
    (forall r, In r rows -> map fst (snd r) = table_columns) ->
    format_summary text rows with_validation = Ok disp ->
    exists constants,
      d_caption disp = ("Analysis results of experiment designs where the following design attributes are constant for all designs: " ++
        join (map (fun cv => fst cv ++ " = " ++ text (snd cv)) constants))%string /\
      (forall c v, In (c, v) constants <-> In c design_attributes /\ constant_in rows c v) /\
      Forall2 (fun r r' => fst r' = fst r /\ NoDup (map fst (snd r')) /\
        (forall t, In t (map fst (snd r')) -> exists c, In c table_columns /\ t = clean_name c) /\
        forall c v, dget c (snd r) = Some v -> In c table_columns ->
          (dget (clean_name c) (snd r') = Some v /\ ~ In c (map fst constants) /\ (In c (rate_columns ++ check_columns) -> with_validation = true)) \/
          (~ In (clean_name c) (map fst (snd r')) /\
           ((exists w, In (c, w) constants /\ same w v) \/ (In c (rate_columns ++ check_columns) /\ with_validation = false))))
        rows (d_rows disp).
Proof.
  intros text rows wv disp HR H. destruct (format_form text rows wv HR) as (cs & disp' & E & NC & IC & SC & EC & ER & _ & _).
  assert (disp' = disp) by congruence. subst disp'. exists cs. split; [exact EC|]. split; [exact IC|].
  set (shown := fun c => andb (orb wv (negb (is_validation_column c))) (negb (is_in (map fst cs) c))).
  assert (ER' : d_rows disp = map (fun r => (fst r, map (fun kv => (clean_name (fst kv), snd kv)) (filter (fun kv => shown (fst kv)) (snd r)))) rows) by exact ER.
  clear ER; rename ER' into ER. rewrite ER. clear E H SC EC ER.
  assert (G : forall r, In r rows -> map fst (snd r) = table_columns /\
    (forall c v, In c (map fst cs) -> dget c (snd r) = Some v -> exists w, In (c, w) cs /\ same w v)).
  { intros r Hr. split; auto. intros c v Hc Hv. apply in_map_iff in Hc as ([c1 w] & X & I). cbn in X. subst c1. exists w. split; auto.
    apply IC in I as [_ (r0 & rest & -> & G & A)]. assert (U : forall (a : option sval) x y, a = Some x -> a = Some y -> x = y) by congruence.
    destruct Hr as [<-|Hr]; [left; exact (U _ _ _ G Hv)|].
    destruct (A r Hr) as (w' & G' & S). now rewrite (U _ _ _ Hv G'). }
  clear HR IC. induction rows as [|r rows IH]; cbn [map]; constructor; [|apply IH; intros; apply G; now right].
  destruct (G r (or_introl eq_refl)) as (HR & HC). clear G IH. cbn [fst snd]. split; [reflexivity|].
  assert (MF : map fst (map (fun kv => (clean_name (fst kv), snd kv)) (filter (fun kv => shown (fst kv)) (snd r))) =
    map clean_name (filter shown table_columns)).
  { rewrite map_map. cbn [fst]. rewrite <- HR, <- (filter_fst shown), map_map. reflexivity. }
  rewrite MF. split.
  { generalize titles_distinct. generalize table_columns. induction l as [|a l IHl]; simpl; auto. intros ND. inversion ND; subst.
    destruct (shown a); simpl; auto. constructor; auto. intros I. apply in_map_iff in I as (b & Eb & Ib). apply filter_In in Ib as [Ib _].
    apply H1. rewrite <- Eb. now apply in_map. }
  split. { intros t Ht. apply in_map_iff in Ht as (c & <- & Hc). apply filter_In in Hc as [Hc _]. eauto. }
  intros c v Hv Hc. destruct (shown c) eqn:SH.
  - left. split.
    + rewrite dget_clean; auto; [now rewrite dget_filter|]. rewrite (filter_fst shown), HR. intros x Hx. apply filter_In in Hx. tauto.
    + apply andb_true_iff in SH as [S1 S2]. split.
      * intros I. apply is_in_iff in I. now rewrite I in S2.
      * intros I. destruct wv; auto. cbn in S1. apply negb_true_iff in S1.
        apply (proj2 (c80_hidden_columns_are_the_validation_results c Hc)) in I. congruence.
  - right. split.
    + intros I. apply in_map_iff in I as (c' & E & I). apply filter_In in I as [I S]. apply titles_injective in E; auto. congruence.
    + unfold shown in SH. apply andb_false_iff in SH as [S|S].
      * right. apply orb_false_iff in S as [-> S]. apply negb_false_iff in S. split; auto.
        now apply (proj1 (c80_hidden_columns_are_the_validation_results c Hc)).
      * left. apply negb_false_iff, is_in_iff in S. now apply HC.
Qed.

(** it never fails on a table; with one design all its attributes are in the caption, in the order of the list *)
Theorem c80_display_never_fails :
  forall text rows with_validation, (forall r, In r rows -> map fst (snd r) = table_columns) ->
    exists disp, format_summary text rows with_validation = Ok disp.
Proof. intros text rows wv HR. destruct (format_form text rows wv HR) as (cs & disp & E & _). eauto. Qed.

Theorem c80_one_design_is_described_by_the_caption :
  forall text r with_validation disp, map fst (snd r) = table_columns -> format_summary text [r] with_validation = Ok disp ->
    d_caption disp = ("Analysis results of experiment designs where the following design attributes are constant for all designs: " ++
      join (map (fun c => c ++ " = " ++ match dget c (snd r) with Some v => text v | None => "" end) design_attributes))%string.
Proof.
  intros text [i r] wv disp HR H. cbn [snd] in *.
  set (keep := fun c => orb wv (negb (is_validation_column c))).
  set (rows1 := if wv then [(i, r)] else drop_columns is_validation_column [(i, r)]).
  assert (R1 : rows1 = [(i, filter (fun kv => keep (fst kv)) r)]).
  { unfold rows1, keep. destruct wv; cbn [orb]; [|reflexivity]. f_equal. f_equal. clear. induction r as [|kv r IH]; simpl; [reflexivity|]. now rewrite <- IH. }
  assert (KA : forall c, In c design_attributes -> keep c = true /\ In c table_columns).
  { intros c Hc. unfold design_attributes in Hc. cbn [In] in Hc. unfold keep.
    repeat (destruct Hc as [<-|Hc]; [split; [destruct wv; reflexivity|cbn; tauto]|]). destruct Hc. }
  assert (EC : constant_columns design_attributes rows1 = Ok (map (fun c => (c, match dget c r with Some v => v | None => VNone end)) design_attributes)).
  { rewrite R1. revert KA. generalize design_attributes. induction l as [|c l IH]; intros KA; [reflexivity|]. cbn [constant_columns].
    rewrite IH by (intros; apply KA; now right). unfold column_values. cbn [mapM snd].
    destruct (KA c (or_introl eq_refl)) as [K I]. rewrite (dget_filter keep) by exact K.
    destruct (dget_some c r) as (v & EV); [now rewrite HR|]. cbn [map]. rewrite EV. reflexivity. }
  unfold format_summary, extract_constants in H. cbv zeta in H.
  match type of H with context [constant_columns design_attributes ?q] => change q with rows1 in H end. rewrite EC in H. cbn [bind fst snd] in H.
  match type of H with Ok ?q = _ => assert (E : d_caption disp = d_caption q) by congruence end. rewrite E. cbn [d_caption]. f_equal. f_equal.
  rewrite map_map. apply map_ext_in. intros c Hc. cbn [fst snd]. destruct (dget_some c r) as (v & ->); [rewrite HR; now apply KA|reflexivity].
Qed.

(** the colour of a check tells its outcome: green for a pass, dark red for a failure, none before the validation *)
Theorem c80_check_colours :
  forall v, (format_check_column v = "background-color:lightgreen" <-> v = Some true) /\
    (format_check_column v = "background-color:darkred;color:white" <-> v = Some false) /\
    (format_check_column v = "" <-> v = None).
Proof. intros [[|]|]; cbn; repeat split; intros; congruence. Qed.

(** which titles are formatted as percentages and coloured as checks *)
Theorem c80_formatted_columns :
  forall text rows with_validation disp, (forall r, In r rows -> map fst (snd r) = table_columns) -> rows <> [] ->
    format_summary text rows with_validation = Ok disp ->
    (forall t, In t (d_percent disp) <-> In t (columns_of (d_rows disp)) /\
       exists c, In c (["relative_minimum_detectable_effect"; "pre_trim_top_percentile"; "pre_trim_bottom_percentile"; "post_trim_percentile"] ++ rate_columns) /\
         t = clean_name c) /\
    (forall t, In t (d_checks disp) <-> with_validation = true /\ exists c, In c check_columns /\ t = clean_name c).
Proof.
  intros text rows wv disp HR NE H. destruct (format_form text rows wv HR) as (cs & disp' & E & NC & IC & SC & _ & ER & EP & EK).
  assert (disp' = disp) by congruence. subst disp'. clear E H. set (shown := fun c => andb (orb wv (negb (is_validation_column c))) (negb (is_in (map fst cs) c))).
  assert (ER' : d_rows disp = map (fun r => (fst r, map (fun kv => (clean_name (fst kv), snd kv)) (filter (fun kv => shown (fst kv)) (snd r)))) rows) by exact ER.
  clear ER; rename ER' into ER. split.
  - assert (PC : percent_columns = map clean_name (["relative_minimum_detectable_effect"; "pre_trim_top_percentile"; "pre_trim_bottom_percentile"; "post_trim_percentile"] ++ rate_columns))
      by (vm_compute; reflexivity).
    intros t. rewrite EP, filter_In, is_in_iff. split; intros [A B].
    + split; [exact B|]. rewrite PC in A. apply in_map_iff in A as (c & <- & Hc). eauto.
    + split; [|exact A]. destruct B as (c & Hc & ->). rewrite PC. now apply in_map.
  - intros t. rewrite EK, filter_In. destruct rows as [|r rows]; [contradiction|]. rewrite ER. cbn [map columns_of snd].
    rewrite map_map. cbn [fst].
    assert (MF : map (fun x => clean_name (fst x)) (filter (fun kv => shown (fst kv)) (snd r)) = map clean_name (filter shown table_columns)).
    { rewrite <- (HR r (or_introl eq_refl)), <- (filter_fst shown), map_map. reflexivity. }
    rewrite MF. split.
    + intros [I P]. apply in_map_iff in I as (c & <- & I). apply filter_In in I as [I S].
      assert (CK : In c check_columns).
      { clear - I P. cbn in I. repeat (destruct I as [<-|I]; [first [cbn; tauto|vm_compute in P; discriminate P]|]). destruct I. }
      split; [|eauto]. unfold shown in S. apply andb_true_iff in S as [S _]. destruct wv; auto. cbn [orb] in S. apply negb_true_iff in S.
      assert (X := proj2 (c80_hidden_columns_are_the_validation_results c I)). rewrite S in X. exfalso. assert (false = true); [|discriminate].
      apply X. apply in_or_app. now right.
    + intros [-> (c & Hc & ->)]. split.
      * apply in_map. apply filter_In. split; [unfold table_columns; repeat (apply in_or_app; right); exact Hc|]. unfold shown. cbn [orb].
        apply negb_true_iff. destruct (is_in (map fst cs) c) eqn:Q; [|reflexivity]. exfalso. apply is_in_iff in Q.
        apply in_map_iff in Q as ([c1 v] & X & I). cbn in X. subst c1. apply IC in I as [I _].
        cbn in Hc. repeat (destruct Hc as [<-|Hc]; [cbn in I; intuition discriminate|]). destruct Hc.
      * cbn in Hc. repeat (destruct Hc as [<-|Hc]; [reflexivity|]). destruct Hc.
Qed.

(** two estimated designs that differ in one attribute, sorted by the number of weeks *)
Definition estimated_sim (d : design) : sim :=
  mkSim d "item" "week" 4 (Some 20%Z) "period" "arm" 0%R (Some (Fin 3)) (Some (Fin (1 / 10))) (Some (Fin 30)) (Some (Fin 2)) None None.
Definition longer_design : design :=
  mkDesignRec (mkParams 1000 12 "clicks" 4 true (flit 1 10) (flit 5 100) (flit 1 10) (Some 1%Z) (flit 5 100) (flit 8 10) None) 850 680.
Definition short_text (v : sval) : string := match v with VInt _ => "an integer" | VFloat _ => "a float" | VStr s => s | VBool true => "True" | _ => "?" end.
Definition same_order (keys : list sval) : list nat := seq 0 (List.length keys).

Example c80_example :
  match make_analysis_summary_dataframe (fr toy_FloatRepr) (fun _ => Ok NaN) (fun _ _ _ _ => Ok NaN) (fun _ _ => Ok NaN) same_order
          [estimated_sim ex_design; estimated_sim longer_design] "runtime_weeks" with
  | Err _ => False
  | Ok rows =>
      map (fun r => map fst (snd r)) rows = [table_columns; table_columns] /\
      match format_summary short_text rows false with
      | Err _ => False
      | Ok disp =>
          columns_of (d_rows disp) = ["Runtime Weeks"; "Crossover Washout Weeks"; "Minimum Detectable Effect"; "Relative Minimum Detectable Effect"] /\
          d_percent disp = ["Relative Minimum Detectable Effect"] /\ d_checks disp = [] /\
          d_caption disp = ("Analysis results of experiment designs where the following design attributes are constant for all designs: " ++
            "primary_metric = clicks, alpha = a float, power = a float, n_items_before_trimming = an integer, " ++
            "n_items_after_pre_trim = an integer, n_items_after_post_trim = an integer, pretest_weeks = an integer, " ++
            "pre_trim_top_percentile = a float, pre_trim_bottom_percentile = a float, post_trim_percentile = a float, is_crossover = True")%string
      end
  end.
Proof. vm_compute. repeat split. Qed.

(** the order of the example is a sorting one *)
Example c80_example_order : sorting [VInt 8; VInt 12] (same_order [VInt 8; VInt 12]) /\ ~ sorting [VInt 8; VInt 12] [1; 0]%nat.
Proof.
  split.
  - split; [apply Permutation_refl|]. repeat constructor.
  - intros [_ S]. inversion S as [|? ? _ F]; subst. inversion F as [|? ? F1 _]; subst. discriminate F1.
Qed.

Print Assumptions c80_summary_has_the_design_the_id_and_the_results.
Print Assumptions c80_results_are_none_until_computed.
Print Assumptions c80_summary_without_validation_never_fails.
Print Assumptions c80_table_has_one_sorted_row_per_analysis.
Print Assumptions c80_table_fails_iff.
Print Assumptions c80_hidden_columns_are_the_validation_results.
Print Assumptions c80_display_loses_nothing.
Print Assumptions c80_display_never_fails.
Print Assumptions c80_one_design_is_described_by_the_caption.
Print Assumptions c80_check_colours.
Print Assumptions c80_formatted_columns.
