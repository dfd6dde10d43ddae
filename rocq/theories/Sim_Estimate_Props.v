(** C73: estimating from the data frame: when it succeeds, the counts, and the averages over the start weeks. *)
From Coq Require Import ZArith Reals Lra Lia List String Bool Permutation Sorting.Sorted.
From Flocq Require Import Core BinarySingleNaN.
Require Import Verif.Base Verif.Num Verif.NumOrd Verif.F64 Verif.Frame Verif.ListLib Verif.Design_Model Verif.Design_Spec Verif.Design_Proofs Verif.Design_Yaml_Proofs Verif.Design_Props
  Verif.Trimmed_Model Verif.Trimmed_Spec Verif.Moments Verif.Trimmed_Proofs Verif.Trimmed_Real Verif.Trimmed_Props
  Verif.Cuped_Model Verif.Cuped_Props Verif.Stats_Model Verif.Stats_Num Verif.Stats_Props Verif.Tests_Proofs
  Verif.Tests_Props Verif.Periods_Model Verif.Periods_Proofs Verif.Rows_Model Verif.Rows_Spec Verif.Pivot_Spec Verif.Assign_Spec Verif.Assign_Model Verif.Assign_Proofs Verif.Assign_Props
  Verif.Pivot_Model Verif.Pivot_Proofs Verif.Pivot_Props Verif.Analysis_Spec Verif.Analysis_Model Verif.Analysis_Props Verif.Analysis_Props2 Verif.Effect_Props
  Verif.Simulation_Model Verif.Sim_Boot_Props Verif.Sim_State_Props Verif.Sim_Stats_Props.
Import ListNotations.
Open Scope string_scope.
Open Scope list_scope.
Open Scope R_scope.

Lemma col_dec (a b : string * string) : {a = b} + {a <> b}.
Proof. decide equality; apply string_dec. Defined.

(** tables of numbers *)
Definition finite_table {K} (t : table K) : Prop :=
  NoDup (t_cols t) /\ forall r, In r (t_rows t) -> exists vs, snd r = data vs /\ List.length vs = List.length (t_cols t).
Lemma finite_holds {K} (t : table K) c : finite_table t -> In c (t_cols t) ->
  exists xs, holds t c (data xs) /\ List.length xs = List.length (t_rows t).
Proof.
  intros [_ H] HC. apply In_nth_error in HC as (i & Hi).
  assert (LI : (i < List.length (t_cols t))%nat) by (apply nth_error_Some; congruence).
  assert (G : exists xs, Forall2 (fun r x => nth_error (snd r) i = Some x) (t_rows t) (data xs) /\ List.length xs = List.length (t_rows t)).
  { induction (t_rows t) as [|r rows IH]; [exists []; split; [constructor|reflexivity]|].
    destruct (H r (or_introl eq_refl)) as (vs & E & L). destruct IH as (xs & F & LX); [intros; apply H; now right|].
    exists (nth i vs 0 :: xs). split; [|simpl; lia]. constructor; auto. rewrite E. unfold data. rewrite nth_error_map.
    rewrite (nth_error_nth' vs 0) by lia. reflexivity. }
  destruct G as (xs & F & L). exists xs. split; auto. exists i. auto.
Qed.
Lemma finite_subseq {K} (t t' : table K) : finite_table t -> t_cols t' = t_cols t -> subseq (t_rows t') (t_rows t) -> finite_table t'.
Proof. intros [N H] E S. split; [now rewrite E|]. intros r Hr. rewrite E. apply H. eapply subseq_In; eauto. Qed.

(** *** Pivoting for a simulation *)
Section Frame.
Context (p : params) (d : design) (HD : mk_design p = Ok d).
Context (f : frame) (w : Z) (lab : Z -> label) (HL : label_fun p w = Ok lab) (item week period : string).
Let rows := frame_rows f [metric p] item week None.
Context (HC : calm rows).

(** the frame has the columns that are read, and not the helper column *)
Definition readable : Prop :=
  has_col period f = false /\ has_col item f = true /\ has_col week f = true /\ has_col (metric p) f = true.
(** the number of items with a week in some period *)
Definition n_items (n : nat) : Prop := has_card (fun k => exists r s, In r rows /\ p_key r = k /\ in_period lab s r) n.
Definition observed (s : string) : Prop := exists r, In r rows /\ in_period lab s r.

Lemma has_card_unique {A} (P : A -> Prop) n m : has_card P n -> has_card P m -> n = m.
Proof.
  intros (l & N1 & <- & H1) (l' & N2 & <- & H2). apply Nat.le_antisymm; apply NoDup_incl_length; auto; intros x Hx; [apply H2, H1|apply H1, H2]; auto.
Qed.

Lemma sim_pivot_inv f' t : pivot_time_assignment f p w [metric p] item week None period = (f', Ok t) ->
  readable /\ f' = f /\ pivot_rows akeqb akleb p w [metric p] rows = Ok t.
Proof.
  intros H. assert (X := c15_successful_pivot_leaves_the_frame_unchanged f (mkCall p w [metric p] item week None period) t).
  unfold run_call in X. cbn [c_p c_start c_metrics c_item c_week c_treat c_period] in X. rewrite H in X. specialize (X eq_refl). cbn [fst] in X.
  unfold pivot_time_assignment in H. destruct (has_col period f) eqn:E1; [discriminate|]. cbn [app existsb] in H.
  destruct (has_col item f) eqn:E2; [|discriminate]. destruct (has_col week f) eqn:E3; [|discriminate]. destruct (has_col (metric p) f) eqn:E4; [|discriminate].
  cbn [negb orb] in H. rewrite HL in H. fold rows in H. destruct (pivot_rows akeqb akleb p w [metric p] rows) as [t'|e]; [|discriminate].
  split; [repeat split; auto|]. split; auto. congruence.
Qed.
Lemma sim_pivot_ok t : readable -> pivot_rows akeqb akleb p w [metric p] rows = Ok t ->
  pivot_time_assignment f p w [metric p] item week None period = (f, Ok t).
Proof.
  intros (E1 & E2 & E3 & E4) H.
  assert (X := c15_successful_pivot_leaves_the_frame_unchanged f (mkCall p w [metric p] item week None period) t).
  unfold run_call in X. cbn [c_p c_start c_metrics c_item c_week c_treat c_period] in X.
  assert (Y : snd (pivot_time_assignment f p w [metric p] item week None period) = Ok t).
  { unfold pivot_time_assignment. rewrite E1. cbn [app existsb]. rewrite E2, E3, E4. cbn [negb orb]. rewrite HL. fold rows. now rewrite H. }
  specialize (X Y). destruct (pivot_time_assignment _ _ _ _ _ _ _ _) as [f1 r]. cbn [fst snd] in *. congruence.
Qed.

Lemma sim_table t : pivot_rows akeqb akleb p w [metric p] rows = Ok t ->
  finite_table t /\ NoDup (map fst (t_rows t)) /\ n_items (List.length (t_rows t)) /\
  (forall s, In (metric p, s) (t_cols t) <-> observed s) /\ (crossover p = false -> observed "test").
Proof.
  intros H. assert (ET := pivot_rows_tab akeqb akleb akey_ord p d w lab [metric p] rows t HD HL HC H).
  destruct (c14_values_are_weekly_averages _ _ _ p d w lab [metric p] rows t akey_ord HD HL HC ltac:(discriminate) H) as (CK & CS & CCo & _).
  assert (ND : NoDup (map fst (t_rows t))).
  { clear - CS. induction CS as [|k l SS IH F]; constructor; auto. intros I. rewrite Forall_forall in F. apply F in I as [_ N]. congruence. }
  split; [|split; [exact ND|]; split; [|split]].
  - split.
    + rewrite ET. cbn [tab t_cols]. apply cols_at_NoDup. repeat constructor. intros [].
    + intros r Hr. rewrite ET in Hr. cbn [tab t_rows] in Hr. apply in_map_iff in Hr as (k & <- & _). cbn [snd].
      assert (TC : t_cols t = cols_at akeqb akleb lab [metric p] rows) by now rewrite ET. rewrite TC in *.
      assert (G : forall cols, (forall m s, In (m, s) cols -> exists r, In r rows /\ in_period lab s r) ->
        exists vs, map (fun c => ndiv (Rows_Spec.total (is_at akeqb lab k (snd c)) (metric_value [metric p] (fst c)) rows) (Fin (IZR (weeks_of p (snd c))))) cols = data vs
          /\ List.length vs = List.length cols).
      { induction cols as [|[m s] cols IH]; intros HO; [exists []; split; reflexivity|].
        destruct IH as (vs & EV & LV); [intros; eapply HO; right; eauto|].
        destruct (total_finite (is_at akeqb lab k s) (metric_value [metric p] m) rows) as (x & EX).
        { intros r Hr. specialize (HC r Hr). unfold metric_value. cbn [combine]. destruct (p_vals r) as [|v vs'] eqn:EP; [split; discriminate|].
          inversion HC as [|? ? N1 N2]; subst. cbn [assoc]. destruct (String.eqb m (metric p)); [exact N1|]. split; discriminate. }
        destruct (HO m s (or_introl eq_refl)) as (r & _ & wk & _ & EL).
        destruct (weeks_of_card p d lab w s HD HL (ex_intro _ wk EL)) as [_ WP].
        exists (x / IZR (weeks_of p s) :: vs). split; [|simpl; congruence]. cbn [map fst snd data]. unfold data in EV |- *. cbn [map]. rewrite EV, EX.
        rewrite ndiv_fin; [reflexivity|]. apply not_0_IZR. lia. }
      apply G. intros m s I. apply CCo in I as (_ & r & ?). eauto.
  - exists (map fst (t_rows t)). split; auto. split; [apply map_length|]. exact CK.
  - intros s. rewrite CCo. unfold observed. split; [intros (_ & X); exact X|intros X; split; [now left|exact X]].
  - intros CR. unfold observed. unfold label_fun in HL. rewrite CR in HL. inversion HL; subst lab.
    unfold pivot_rows in H. rewrite CR in H. unfold pivot_regular in H. cbv zeta in H.
    destruct (has_period "test" _) eqn:E; [|discriminate].
    now apply (test_present akeqb akleb akey_ord p w [metric p] rows HC ltac:(discriminate)).
Qed.

Lemma sim_pivot_exists : (crossover p = false -> observed "test") -> exists t, pivot_rows akeqb akleb p w [metric p] rows = Ok t.
Proof.
  intros H. destruct (pivot_rows akeqb akleb p w [metric p] rows) as [t|e] eqn:E; [eauto|]. exfalso.
  destruct (proj1 (c14_fails_iff_no_test_week _ _ _ p d w lab [metric p] rows akey_ord HD HL HC ltac:(discriminate)) (ex_intro _ e E)) as [CR N].
  destruct (H CR) as (r & Hr & wk & Ew & EL). apply (N r wk Hr Ew). assert (EQ : lab = regular_label w (pretest p) (runtime p)) by (unfold label_fun in HL; rewrite CR in HL; congruence).
  rewrite EQ in EL. apply mk_design_iff in HD as [D _]. apply (regular_label_iff w (pretest p) (runtime p) wk) in EL; [exact EL|apply (ok_pretest _ D)|generalize (ok_runtime _ D); lia].
Qed.
End Frame.

(** *** Trimming before the test *)
Section Trim.
Context (p : params) (d : design) (HD : mk_design p = Ok d).
Context {G : Type} (shuffle_of : G -> nat -> list nat * G) (HSH : forall g, shuffles (fun k => fst (shuffle_of g k))).

Definition pretrims : Prop := (trim_count (top p) (n_before p) <> 0 \/ trim_count (bottom p) (n_before p) <> 0)%Z.

Lemma trim_count_0 q n : B2R q = 0 -> trim_count q n = 0%Z.
Proof. intros E. unfold trim_count. rewrite E, Rmult_0_l, rnd_0. apply (Zfloor_IZR 0). Qed.
Lemma n_pre_design : n_pre d = (n_before p - trim_count (top p) (n_before p) - trim_count (bottom p) (n_before p))%Z.
Proof. now destruct (proj1 (mk_design_iff p d) HD) as [_ ->]. Qed.
Lemma no_pretest_no_trimming : pretest p = 0%Z -> ~ pretrims.
Proof.
  intros E. destruct (proj1 (mk_design_iff p d) HD) as [D _]. destruct (ok_pretrim _ D E) as [E1 E2].
  unfold pretrims. rewrite (trim_count_0 _ _ E1), (trim_count_0 _ _ E2). intros [X|X]; congruence.
Qed.

Lemma trim_pivoted_cases (t : table ikey) g : finite_table t -> Z.of_nat (List.length (t_rows t)) = n_before p -> (n_before p < 2 ^ 53)%Z ->
  (~ pretrims \/ In (metric p, "pretest") (t_cols t) ->
   exists g' t', trim_pivoted shuffle_of p t g = (g', Ok t') /\ t_cols t' = t_cols t /\ subseq (t_rows t') (t_rows t) /\
     Z.of_nat (List.length (t_rows t')) = n_pre d) /\
  (pretrims -> ~ In (metric p, "pretest") (t_cols t) -> exists g' e, trim_pivoted shuffle_of p t g = (g', Err e)).
Proof.
  intros FT EN LB. destruct (proj1 (mk_design_iff p d) HD) as [D _]. destruct (ok_finite _ D) as (F1 & F2 & _).
  unfold trim_pivoted.
  set (value := fun r : ikey * list num => match column_index (metric p, "pretest") (t_cols t) with Some i => nth i (snd r) NaN | None => NaN end).
  set (sh := fun k => fst (shuffle_of g k)).
  destruct (proj2 (trim_succeeds value (top p) (bottom p) sh (t_rows t) ltac:(lia))) as (out & HO).
  { split; auto. split; auto. split; [apply (ok_top _ D)|]. split; [apply (ok_bottom _ D)|apply (ok_sum _ D)]. }
  destruct (trim_ok_inv _ _ _ _ _ _ HO) as (kt & kb & E1 & E2 & CA). rewrite EN in E1, E2.
  assert (T1 := trim_count_floor _ _ _ E1). assert (T2 := trim_count_floor _ _ _ E2).
  assert (TN : trims_nothing (List.length (t_rows t)) (top p) (bottom p) = true <-> ~ pretrims).
  { unfold trims_nothing. rewrite EN. rewrite (proj2 (floor_mul'_eq _ _ _) E1), (proj2 (floor_mul'_eq _ _ _) E2).
    rewrite andb_true_iff, !Z.eqb_eq, T1, T2. unfold pretrims. lia. }
  change (trim_outliers value (top p) (bottom p) (fun k : nat => fst (shuffle_of g k)) (t_rows t)) with (trim_outliers value (top p) (bottom p) sh (t_rows t)).
  rewrite HO. split.
  - intros HT. destruct (andb _ _) eqn:EA.
    + exfalso. apply andb_true_iff in EA as [A B]. apply negb_true_iff in A, B. destruct HT as [HT|HT].
      * apply TN in HT. congruence.
      * apply has_column_iff in HT. congruence.
    + eexists. exists (mkT (t_cols t) out). split; [reflexivity|]. cbn [t_cols t_rows]. split; auto. split; [now apply trim_subseq in HO|].
      rewrite n_pre_design. destruct HT as [HT|HT].
      * rewrite (c36_nothing_to_trim_returns_the_data value _ _ _ _ _ HO); rewrite ?EN; unfold pretrims in HT; lia.
      * assert (NN : forall r, In r (t_rows t) -> value r <> NaN).
        { intros r Hr. unfold value. apply In_nth_error in HT as (i & Hi). rewrite (column_index_nth _ _ i (proj1 FT) Hi).
          destruct (proj2 FT r Hr) as (vs & E & L). rewrite E. unfold data.
          assert (LI : (i < List.length (t_cols t))%nat) by (apply nth_error_Some; congruence).
          rewrite (nth_indep _ NaN (Fin 0)) by (rewrite map_length; lia). rewrite map_nth. discriminate. }
        destruct (c36_removes_exactly_the_extremes value _ _ _ _ _ (HSH g) NN ltac:(lia) HO) as [_ LO]. rewrite EN in LO. exact LO.
  - intros HP HN. assert (A : trims_nothing (List.length (t_rows t)) (top p) (bottom p) = false).
    { apply not_true_iff_false. rewrite TN. tauto. }
    assert (B : has_column t (metric p, "pretest") = false) by (apply not_true_iff_false; now rewrite has_column_iff).
    rewrite A, B. cbn [negb andb]. eauto.
Qed.
End Trim.

(** *** The statistics of a start week, from the frame *)
Section Estimate.
Context (argsort : list num -> list nat) (HS : sorts argsort).
Context {G : Type} (shuffle_of sample_of : G -> nat -> list nat * G) (HSH : forall g, shuffles (fun k => fst (shuffle_of g k))).
Context (p : params) (d : design) (HD : mk_design p = Ok d) (HB : (n_before p < 2 ^ 53)%Z).
Context (s : sim) (HM : sm_design s = d).

Definition test_periods : list string := if crossover p then ["test_1"; "test_2"] else ["test"].

Lemma stats_succeed (t : table ikey) : finite_table t -> Z.of_nat (List.length (t_rows t)) = n_pre d -> (n_pre d <= 2 ^ 53)%Z ->
  (forall s, In s test_periods -> In (metric p, s) (t_cols t)) ->
  exists a v n, primary_metric_stats argsort d t = Ok (a, v, n) /\ Z.of_nat n = n_post d.
Proof.
  intros FT EN LB HT. assert (ND := proj1 FT). assert (P50 := post_items p d HD).
  assert (L0 : (0 < List.length (t_rows t))%nat).
  { destruct (proj1 (mk_design_iff p d) HD) as [D E]. rewrite E in P50, EN. cbn [n_post n_pre] in P50, EN. unfold spec_n_post in P50. rewrite <- EN in P50.
    destruct (List.length (t_rows t)); [|lia]. exfalso. unfold trim_count in P50. simpl Z.of_nat in P50. rewrite rnd_0, Rmult_0_r, rnd_0 in P50.
    change (Zfloor 0) with (Zfloor (IZR 0)) in P50. rewrite Zfloor_IZR in P50. lia. }
  unfold test_periods in HT. destruct (crossover p) eqn:CR.
  - destruct (finite_holds t _ FT (HT "test_1" (or_introl eq_refl))) as (xs & H1 & L1).
    destruct (finite_holds t _ FT (HT "test_2" (or_intror (or_introl eq_refl)))) as (ys & H2 & _).
    destruct (sorted_exists (minus xs ys)) as (sd & SS).
    destruct (c73_crossover_statistics argsort HS p d HD t xs ys sd CR ND H1 H2) as (k & kept & _ & E & _ & _ & _ & _ & R); auto; [congruence| |].
    { intros ->. simpl in L1. lia. }
    rewrite R. eauto.
  - destruct (finite_holds t _ FT (HT "test" (or_introl eq_refl))) as (xs & H1 & L1). assert (NE : xs <> []) by (intros ->; simpl in L1; lia).
    destruct (sorted_exists xs) as (sx & SS). rewrite <- L1 in EN.
    destruct (in_dec col_dec (metric p, "pretest") (t_cols t)) as [HP|HP].
    + destruct (finite_holds t _ FT HP) as (cs & H2 & L2).
      destruct (Z.eq_dec (trim_each (List.length xs) (post p)) 0) as [TE|TE].
      * assert (EP : Z.of_nat (List.length xs) = n_post d).
        { destruct (design_array argsort HS p d HD (List.length xs) [data xs]) as (tr & _ & _ & EK & HK & _ & EP); auto; [discriminate| |lia|].
          - intros r [<-|[]]. unfold data. apply map_length.
          - assert (K0 : t_k tr = 0%nat) by lia. rewrite K0, Nat.mul_0_r, Nat.sub_0_r in EP. exact EP. }
        destruct (Req_dec (sqdev cs) 0) as [SC|SC].
        -- rewrite (c73_constant_pretest_gives_nan argsort HS p d HD t xs cs CR ND H1 H2 EN LB TE SC NE). eauto 6.
        -- rewrite (c73_regular_statistics_with_pretest argsort HS p d HD t xs cs CR ND H1 H2 EN LB TE SC). eauto 6.
      * destruct (c73_regular_statistics_with_pretest_and_trimming argsort HS p d HD t xs cs sx CR ND H1 H2 EN LB) as (k & v & _ & E & _ & R); auto.
        { assert (U : usable (List.length xs) (post p)) by (apply (usable_design_post p d); auto; lia).
          destruct (mk_trimmed_usable argsort [data xs] (post p) (List.length xs) HS U) as (tr & _ & _ & EK & _); [discriminate| |lia].
          intros r [<-|[]]. unfold data. apply map_length. }
        rewrite R. eauto.
    + destruct (c73_regular_statistics argsort HS p d HD t xs sx CR ND H1 HP EN LB NE SS) as (k & _ & E & R). rewrite R. eauto.
Qed.

Lemma stats_need_columns (t : table ikey) st : primary_metric_stats argsort d t = Ok st ->
  forall s, In s test_periods -> In (metric p, s) (t_cols t).
Proof.
  intros H s' Hs. assert (MV : forall v, metric_values t (metric p) s' = Ok v -> In (metric p, s') (t_cols t)).
  { intros v E. destruct (in_dec col_dec (metric p, s') (t_cols t)) as [Y|N]; auto.
    now rewrite (metric_values_none _ _ _ N) in E. }
  unfold primary_metric_stats in H. rewrite (par_design p d HD) in H. apply bind_ok in H as (st' & H & _). unfold test_periods in Hs. destruct (crossover p).
  - apply bind_ok in H as (y1 & H1 & H). apply bind_ok in H as (y2 & H2 & _). destruct Hs as [<-|[<-|[]]]; eauto.
  - apply bind_ok in H as (y1 & H1 & H). destruct Hs as [<-|[]]. eauto.
Qed.
Lemma stats_count (t : table ikey) st : primary_metric_stats argsort d t = Ok st -> Z.of_nat (snd st) = n_post d.
Proof.
  unfold primary_metric_stats. intros H. apply bind_ok in H as (st' & _ & H). apply bind_ok in H as ([] & H1 & H). apply raise_if_ok in H1.
  apply negb_false_iff, Z.eqb_eq in H1. congruence.
Qed.

Theorem c73_estimation_succeeds_iff :
  forall w lab f g, label_fun p w = Ok lab -> calm (frame_rows f [metric p] (sm_item s) (sm_week s) None) ->
    ((exists y st, estimate_primary_metric_stats argsort shuffle_of sample_of s w (f, g) = (y, Ok st)) <->
     readable p f (sm_item s) (sm_week s) (sm_period s) /\
     (forall q, In q test_periods -> observed p f lab (sm_item s) (sm_week s) q) /\
     (exists n, n_items p f lab (sm_item s) (sm_week s) n /\ Z.of_nat n = n_before p) /\
     (pretrims p -> observed p f lab (sm_item s) (sm_week s) "pretest")).
Proof.
  intros w lab f g HL HC. unfold estimate_primary_metric_stats, get_pivoted_and_trimmed, sbind, on_frame, on_rng, sret. rewrite HM, (par_design p d HD). cbn [fst snd].
  destruct (proj1 (mk_design_iff p d) HD) as [D _]. split.
  - intros (y & st & H). destruct (pivot_time_assignment f p w _ _ _ _ _) as [f' [t0|e]] eqn:EP; [|discriminate]. cbn [fst snd] in H.
    apply (sim_pivot_inv p f w lab HL) in EP as (RD & -> & HP). split; auto.
    destruct (sim_table p d HD f w lab HL _ _ HC t0 HP) as (FT & _ & NI & CO & _).
    set (t1 := mkT (t_cols t0) (map (fun r => (IStr (fst (fst r)), snd r)) (t_rows t0))) in *.
    assert (F1 : finite_table t1). { split; [apply FT|]. intros r Hr. unfold t1 in Hr. cbn [t_rows] in Hr. apply in_map_iff in Hr as (r0 & <- & H0). cbn [snd t_cols t1]. now apply FT. }
    assert (L1 : List.length (t_rows t1) = List.length (t_rows t0)) by apply map_length.
    cbn [negb andb] in H. destruct (Z.eqb (Z.of_nat (List.length (t_rows t1))) (n_before p)) eqn:EN; [|discriminate]. apply Z.eqb_eq in EN. cbn [negb raise_if] in H.
    assert (N3 : exists n, n_items p f lab (sm_item s) (sm_week s) n /\ Z.of_nat n = n_before p) by (exists (List.length (t_rows t0)); split; [exact NI|congruence]).
    destruct (0 <? pretest p)%Z eqn:EPT.
    + destruct (trim_pivoted_cases p d HD shuffle_of HSH t1 g F1 EN HB) as [CA CB].
      assert (PD : ~ pretrims p \/ In (metric p, "pretest") (t_cols t1)).
      { destruct (in_dec col_dec (metric p, "pretest") (t_cols t1)) as [Y|N]; [now right|left].
        intros X. destruct (CB X N) as (g' & e & E). cbn [fst snd] in H. rewrite E in H. discriminate. }
      destruct (CA PD) as (g' & t3 & E & EC & _ & EL). cbn [fst snd] in H. rewrite E in H. cbn [fst snd] in H. rewrite EL, Z.eqb_refl in H. cbn [negb raise_if] in H.
      destruct (primary_metric_stats argsort d t3) as [st'|e] eqn:ES; [|discriminate].
      split; [|split; auto].
      * intros q Hq. apply CO. change (t_cols t0) with (t_cols t1). rewrite <- EC. now apply (stats_need_columns t3 st' ES).
      * intros X. apply CO. destruct PD as [PD|PD]; [contradiction|exact PD].
    + cbn [fst snd] in H. destruct (Z.eqb _ _); [|discriminate]. cbn [negb raise_if] in H.
      destruct (primary_metric_stats argsort d t1) as [st'|e] eqn:ES; [|discriminate].
      split; [|split; auto].
      * intros q Hq. apply CO. now apply (stats_need_columns t1 st' ES).
      * intros X. exfalso. apply (no_pretest_no_trimming p d HD) in X; auto. apply Z.ltb_ge in EPT. generalize (ok_pretest _ D). lia.
  - intros (RD & HT & (n & HN & EN) & HPT).
    destruct (sim_pivot_exists p d HD f w lab HL (sm_item s) (sm_week s) HC) as (t0 & HP).
    { intros CR. apply HT. unfold test_periods. rewrite CR. now left. }
    rewrite (sim_pivot_ok p f w lab HL _ _ _ t0 RD HP). cbn [fst snd].
    destruct (sim_table p d HD f w lab HL _ _ HC t0 HP) as (FT & _ & NI & CO & _).
    set (t1 := mkT (t_cols t0) (map (fun r => (IStr (fst (fst r)), snd r)) (t_rows t0))) in *.
    assert (F1 : finite_table t1). { split; [apply FT|]. intros r Hr. unfold t1 in Hr. cbn [t_rows] in Hr. apply in_map_iff in Hr as (r0 & <- & H0). cbn [snd t_cols t1]. now apply FT. }
    assert (L1 : List.length (t_rows t1) = List.length (t_rows t0)) by apply map_length.
    rewrite (has_card_unique _ _ _ HN NI), <- L1 in EN. cbn [negb andb]. rewrite EN, Z.eqb_refl. cbn [negb raise_if].
    assert (LP : (n_pre d <= n_before p)%Z).
    { destruct (trim_pivoted_cases p d HD shuffle_of HSH (mkT [(metric p, "pretest")] (map (fun r => (fst r, [Fin 0])) (t_rows t1))) g) as [CA _]; auto.
      - split; [repeat constructor; intros []|]. intros r Hr. cbn [t_rows] in Hr. apply in_map_iff in Hr as (r0 & <- & _). exists [0]. split; reflexivity.
      - cbn [t_rows]. now rewrite map_length.
      - destruct CA as (g' & t' & _ & _ & SQ & EL); [right; now left|]. apply subseq_length in SQ. cbn [t_rows] in SQ. rewrite map_length in SQ. lia. }
    destruct (0 <? pretest p)%Z eqn:EPT.
    + destruct (trim_pivoted_cases p d HD shuffle_of HSH t1 g F1 EN HB) as [CA _].
      destruct CA as (g' & t3 & E & EC & SQ & EL).
      { destruct (Z.eq_dec (trim_count (top p) (n_before p)) 0) as [Z1|Z1], (Z.eq_dec (trim_count (bottom p) (n_before p)) 0) as [Z2|Z2].
        - left. unfold pretrims. tauto.
        - right. apply CO, HPT. now right.
        - right. apply CO, HPT. now left.
        - right. apply CO, HPT. now left. }
      cbn [fst snd]. rewrite E. cbn [fst snd]. rewrite EL, Z.eqb_refl. cbn [negb raise_if].
      destruct (stats_succeed t3) as (a & v & m & R & _); auto.
      { exact (finite_subseq t1 t3 F1 EC SQ). }
      { lia. }
      { intros q Hq. rewrite EC. apply CO. auto. }
      rewrite R. eauto.
    + cbn [fst snd]. assert (EN' : Z.of_nat (List.length (t_rows t1)) = n_pre d).
      { rewrite EN. rewrite (n_pre_design p d HD). assert (X := no_pretest_no_trimming p d HD). apply Z.ltb_ge in EPT.
        assert (E0 : pretest p = 0%Z) by (generalize (ok_pretest _ D); lia). specialize (X E0). unfold pretrims in X. lia. }
      rewrite EN', Z.eqb_refl. cbn [negb raise_if].
      destruct (stats_succeed t1) as (a & v & m & R & _); auto.
      { lia. }
      { intros q Hq. apply CO. auto. }
      rewrite R. eauto.
Qed.

(** a successful estimation does not change the frame, and the size is the design's n_items_after_post_trim *)
Theorem c73_estimation_size :
  forall w f g y st, estimate_primary_metric_stats argsort shuffle_of sample_of s w (f, g) = (y, Ok st) ->
    fst y = f /\ Z.of_nat (snd st) = n_post d.
Proof.
  intros w f g y st H. unfold estimate_primary_metric_stats, get_pivoted_and_trimmed, sbind, on_frame, on_rng, sret in H. cbn [fst snd negb andb] in H.
  destruct (pivot_time_assignment f _ w _ _ _ _ _) as [f' [t0|e]] eqn:EP; [|discriminate]. cbn [fst snd] in H.
  assert (EF : f' = f).
  { assert (X := c15_successful_pivot_leaves_the_frame_unchanged f (mkCall (par (sm_design s)) w [metric (par (sm_design s))] (sm_item s) (sm_week s) None (sm_period s)) t0).
    unfold run_call in X. cbn [c_p c_start c_metrics c_item c_week c_treat c_period] in X. rewrite EP in X. cbn [fst snd] in X. auto. }
  subst f'. destruct (raise_if _ _) as [u|e]; [|discriminate]. cbn [fst snd] in H.
  destruct (0 <? _)%Z.
  - destruct (trim_pivoted _ _ _ _) as [g' [t3|e]]; [|discriminate]. cbn [fst snd] in H. destruct (raise_if _ _) as [u'|e]; [|discriminate].
    destruct (primary_metric_stats _ _ t3) as [st'|e] eqn:ES; [|discriminate]. rewrite HM in ES. apply stats_count in ES.
    assert (st' = st) by congruence. subst st'. split; auto. assert (E : y = (f, g')) by congruence. now subst y.
  - cbn [fst snd] in H. destruct (raise_if _ _) as [u'|e]; [|discriminate].
    destruct (primary_metric_stats _ _ _) as [st'|e] eqn:ES; [|discriminate]. rewrite HM in ES. apply stats_count in ES.
    assert (st' = st) by congruence. subst st'. split; auto. assert (E : y = (f, g)) by congruence. now subst y.
Qed.

Notation one := (estimate_primary_metric_stats argsort shuffle_of sample_of s).
Lemma smap_inv f : forall starts g y stats, smap one starts (f, g) = (y, Ok stats) ->
  fst y = f /\ Forall2 (fun w st => exists g1 g2, one w (f, g1) = ((f, g2), Ok st)) starts stats.
Proof.
  induction starts as [|w l IH]; intros g y stats H; cbn [smap] in H.
  - unfold sret in H. assert (y = (f, g) /\ stats = []) as [-> ->] by (split; congruence). split; auto.
  - unfold sbind in H. destruct (one w (f, g)) as [[f1 g1] [st|e]] eqn:E1; [|discriminate].
    assert (f1 = f) by (apply c73_estimation_size in E1; tauto). subst f1.
    destruct (smap one l (f, g1)) as [y2 [sts|e]] eqn:E2; [|discriminate]. unfold sret in H.
    destruct (IH _ _ _ E2) as [F2 I2]. assert (y = y2 /\ stats = st :: sts) as [-> ->] by (split; congruence). split; auto. constructor; eauto.
Qed.
Lemma smap_succeeds f : forall starts, (forall w g, In w starts -> exists y st, one w (f, g) = (y, Ok st)) ->
  forall g, exists y stats, smap one starts (f, g) = (y, Ok stats).
Proof.
  induction starts as [|w l IH]; intros H g; cbn [smap]; [unfold sret; eauto|]. unfold sbind.
  destruct (H w g (or_introl eq_refl)) as ([f1 g1] & st & E). rewrite E. assert (f1 = f) by (apply c73_estimation_size in E; tauto). subst f1.
  destruct (IH (fun w' g' I => H w' g' (or_intror I)) g1) as (y & sts & E2). rewrite E2. unfold sret. eauto.
Qed.

Lemma sizes_all f starts stats : Forall2 (fun w st => exists g1 g2, one w (f, g1) = ((f, g2), Ok st)) starts stats ->
  forall st, In st stats -> Z.of_nat (snd st) = n_post d.
Proof.
  induction 1 as [|w st l l' (g1 & g2 & E) _ IH]; [intros st []|]. intros st' [<-|I]; auto. apply c73_estimation_size in E. tauto.
Qed.

(** the average, standard deviation and size are taken over all the valid start weeks *)
Theorem c73_averages_over_the_start_weeks :
  forall f g y a sd n, estimate_average_primary_metric_stats argsort shuffle_of sample_of s (f, g) = (y, Ok (a, sd, n)) ->
    fst y = f /\ Z.of_nat n = n_post d /\
    exists starts stats, valid_start_week_ids s = Ok starts /\ starts <> [] /\
      Forall2 (fun w st => exists g1 g2, estimate_primary_metric_stats argsort shuffle_of sample_of s w (f, g1) = ((f, g2), Ok st) /\ snd st = n) starts stats /\
      (forall avs, map (fun st => fst (fst st)) stats = data avs -> a = Fin (avg avs)) /\
      (forall vs, map (fun st => snd (fst st)) stats = data vs -> (forall v, In v vs -> 0 <= v) -> sd = Fin (sqrt (avg vs))) /\
      (* one undefined start week makes the result undefined *)
      (In NaN (map (fun st => fst (fst st)) stats) -> a = NaN) /\ (In NaN (map (fun st => snd (fst st)) stats) -> sd = NaN).
Proof.
  intros f g y a sd n H. unfold estimate_average_primary_metric_stats, sbind, sret in H.
  destruct (valid_start_week_ids s) as [starts|e] eqn:EV; [|discriminate].
  destruct (smap one starts (f, g)) as [y1 [stats|e]] eqn:ES; [|discriminate].
  apply smap_inv in ES as [EF F2]. destruct stats as [|st0 stats]; [discriminate|].
  assert (EY : y1 = y) by congruence. subst y1. split; auto.
  assert (H' : (let! _ := raise_if (existsb (fun x => negb (Nat.eqb (snd x) (snd st0))) (st0 :: stats)) (RuntimeError "The sample size was different for different weeks.") in
     Ok (nmean (map (fun x => fst (fst x)) (st0 :: stats)), nsqrt (nmean (map (fun x => snd (fst x)) (st0 :: stats))), snd st0)) = Ok (a, sd, n)) by congruence.
  clear H. apply bind_ok in H' as ([] & RI & H). apply raise_if_ok in RI. rewrite existsb_false_iff in RI.
  assert (EA : nmean (map (fun x => fst (fst x)) (st0 :: stats)) = a) by congruence.
  assert (ED : nsqrt (nmean (map (fun x => snd (fst x)) (st0 :: stats))) = sd) by congruence.
  assert (EN : snd st0 = n) by congruence. clear H.
  assert (SN : forall st, In st (st0 :: stats) -> snd st = n).
  { intros st Hst. specialize (RI st Hst). apply negb_false_iff, Nat.eqb_eq in RI. congruence. }
  split.
  { rewrite <- EN. apply (sizes_all _ _ _ F2). now left. }
  assert (NAN : forall l, In NaN l -> nmean l = NaN).
  { intros l Hl. unfold nmean. assert (X : nsum l = NaN); [|now rewrite X].
    induction l as [|x l IH]; [destruct Hl|]. unfold nsum in *. simpl. destruct Hl as [->|Hl]; [reflexivity|]. rewrite IH by auto. now destruct x. }
  exists starts, (st0 :: stats). split; auto. split; [inversion F2; discriminate|]. split.
  { clear - F2 SN. induction F2 as [|w st l l' (g1 & g2 & E) _ IH]; constructor.
    - exists g1, g2. split; auto. apply SN. now left.
    - apply IH. intros; apply SN; now right. }
  rewrite <- EA, <- ED. split; [|split; [|split]].
  - intros avs E. rewrite E. unfold data. apply nmean_fin. intros ->. discriminate.
  - intros vs E P. rewrite E. unfold data. assert (NE : vs <> []) by (intros ->; discriminate). rewrite nmean_fin by auto.
    apply nsqrt_fin. unfold avg. apply Rmult_le_pos; [|left; apply Rinv_0_lt_compat, lt_0_INR; destruct vs; [congruence|simpl; lia]].
    clear - P. induction vs as [|v vs IH]; simpl; [lra|]. apply Rplus_le_le_0_compat; [apply P; now left|apply IH; intros; apply P; now right].
  - intros I. now apply NAN.
  - intros I. now rewrite (NAN _ I).
Qed.

(** no start week at all: an error *)
Theorem c73_no_start_week_is_an_error :
  forall x, valid_start_week_ids s = Ok [] -> exists y e, estimate_average_primary_metric_stats argsort shuffle_of sample_of s x = (y, Err (ValueError e)).
Proof. intros x H. unfold estimate_average_primary_metric_stats, sbind, sret. rewrite H. cbn. unfold sret. eauto. Qed.

(** if every start week can be estimated, so can the average: all have the same size *)
Theorem c73_sizes_never_differ :
  forall f g starts, valid_start_week_ids s = Ok starts -> starts <> [] ->
    (forall w g, In w starts -> exists y st, estimate_primary_metric_stats argsort shuffle_of sample_of s w (f, g) = (y, Ok st)) ->
    exists y a sd n, estimate_average_primary_metric_stats argsort shuffle_of sample_of s (f, g) = (y, Ok (a, sd, n)) /\ Z.of_nat n = n_post d.
Proof.
  intros f g starts EV NE H. destruct (smap_succeeds f starts H g) as (y & stats & ES).
  unfold estimate_average_primary_metric_stats, sbind, sret. rewrite EV, ES.
  apply smap_inv in ES as [EF F2].
  assert (SN := sizes_all _ _ _ F2).
  destruct stats as [|st0 stats]; [inversion F2; subst; congruence|].
  replace (existsb _ (st0 :: stats)) with false.
  - cbn [raise_if bind]. eexists _, _, _, _. split; [reflexivity|]. apply SN. now left.
  - symmetry. rewrite existsb_false_iff. intros st I. apply negb_false_iff, Nat.eqb_eq.
    assert (A := SN _ I). assert (B := SN st0 (or_introl eq_refl)). lia.
Qed.
End Estimate.

(** *** The minimum detectable effect *)
Theorem c73_minimum_detectable_effect :
  forall T p a sd n, 0 <= sd -> (2 < n)%nat -> 0 < B2R (power p) < 1 -> 0 < B2R (alpha p) < 2 ->
    let se := if crossover p then sd / sqrt (INR n) else 2 * sd / sqrt (INR n) in
    let df := INR n - (if crossover p then 1 else 2) in
    let mde := se * (td_ppf T (Fin df) (1 - B2R (alpha p) / 2) + td_ppf T (Fin df) (B2R (power p))) in
    minimum_detectable_effect_of T p (Fin a) (Fin sd) n = Ok (Fin mde, ndiv (Fin mde) (Fin a)) /\
    (a <> 0 -> minimum_detectable_effect_of T p (Fin a) (Fin sd) n = Ok (Fin mde, Fin (mde / a))).
Proof.
  intros T p a sd n Hs Hn HP HA se df mde.
  assert (N2 : 2 < INR n) by (apply (lt_INR 2); exact Hn). assert (SQ : 0 < sqrt (INR n)) by (apply sqrt_lt_R0; lra).
  assert (SE : 0 <= se).
  { unfold se. destruct (crossover p); apply Rmult_le_pos; try lra; left; now apply Rinv_0_lt_compat. }
  assert (DF : valid_df (Fin df) = true) by (unfold valid_df, df; apply nltb_fin; destruct (crossover p); lra).
  destruct (c61_minimum_detectable_effect T (Fin df) se "two-sided" (B2R (power p)) (B2R (alpha p))) as (m & HM & EM & _); auto; [now left|cbn; lra|].
  assert (E : minimum_detectable_effect_of T p (Fin a) (Fin sd) n = Ok (Fin mde, ndiv (Fin mde) (Fin a))).
  { unfold minimum_detectable_effect_of. destruct (c61_standard_errors_of_the_designs T sd (INR n) "two-sided" (B2R (power p)) (B2R (alpha p)) Hs N2) as [EI EPd].
    assert (EM' : m = mde) by (rewrite EM; reflexivity). subst m. unfold se, df in HM. destruct (crossover p).
    - rewrite EPd, HM. reflexivity.
    - rewrite EI, HM. reflexivity. }
  split; auto. intros NA. rewrite E. now rewrite (ndiv_fin _ _ NA).
Qed.

(** only the statistics can fail *)
Theorem c73_effect_never_fails :
  forall T argsort G (shuffle_of sample_of : G -> nat -> list nat * G) s x y a sd n,
    estimate_average_primary_metric_stats argsort shuffle_of sample_of s x = (y, Ok (a, sd, n)) ->
    exists s' mde rel, estimate_minimum_detectable_effect T argsort shuffle_of sample_of s x = ((s', y), Ok tt) /\
      minimum_detectable_effect_of T (par (sm_design s)) a sd n = Ok (mde, rel) /\
      sm_avg s' = Some a /\ sm_sd s' = Some sd /\ sm_mde s' = Some mde /\ sm_rel s' = Some rel.
Proof.
  intros T argsort G shuffle_of sample_of s x y a sd n H. unfold estimate_minimum_detectable_effect. rewrite H.
  assert (E : exists mde rel, minimum_detectable_effect_of T (par (sm_design s)) a sd n = Ok (mde, rel)).
  { unfold minimum_detectable_effect_of, paired_minimum_detectable_effect, ind_minimum_detectable_effect.
    destruct (two_sample_standard_errors _ _ _ _ _) as [[? ?] ?]. unfold minimum_detectable_effect_from_stats.
    destruct (crossover _); cbn; eauto. }
  destruct E as (mde & rel & E). rewrite E. eexists _, mde, rel. split; [reflexivity|]. cbn. auto.
Qed.

(** *** Balanced data *)
(** [rows]: weekly data of exactly these items, each with a row in every week from [lo] to [hi] *)
Definition balanced (rows : list (prow akey)) (items : list string) (lo hi : Z) : Prop :=
  (forall r, In r rows -> exists i, In i items /\ p_key r = (i, [])) /\
  (forall i w, In i items -> (lo <= w <= hi)%Z -> exists r, In r rows /\ p_key r = (i, []) /\ p_week r = Some w).

Theorem c73_balanced_data_can_be_estimated :
  forall T argsort G (shuffle_of sample_of : G -> nat -> list nat * G) p d f item week minimum period treat threshold s items lo hi g,
    sorts argsort -> (forall g, shuffles (fun k => fst (shuffle_of g k))) ->
    mk_design p = Ok d -> (n_before p < 2 ^ 53)%Z -> mk_sim d f item week minimum period treat threshold = Ok s ->
    let rows := frame_rows f [metric p] item week None in
    calm rows -> readable p f item week period -> balanced rows items lo hi -> NoDup items -> Z.of_nat (List.length items) = n_before p ->
    max_week f week = Some hi -> (lo + pretest p <= minimum <= hi - runtime p + 1)%Z ->
    exists s' y, estimate_minimum_detectable_effect T argsort shuffle_of sample_of s (f, g) = ((s', y), Ok tt) /\
      fst y = f /\ sm_mde s' <> None.
Proof.
  intros T argsort G shuffle_of sample_of p d f item week minimum period treat threshold s items lo hi g HS HSH HD HB HM rows HC RD (BK & BW) ND EN MW RG.
  unfold mk_sim in HM. destruct RD as (R1 & R2 & R3 & R4). rewrite R3, MW, (par_design p d HD) in HM. cbn [option_map] in HM.
  match type of HM with Ok ?x = _ => assert (ES : x = s) by congruence end. clear HM.
  assert (S1 : sm_design s = d) by now subst s. assert (S2 : sm_item s = item) by now subst s. assert (S3 : sm_week s = week) by now subst s.
  assert (S4 : sm_period s = period) by now subst s.
  assert (EV : valid_start_week_ids s = Ok (zrange minimum (hi - runtime p + 1 + 1))) by now subst s.
  destruct (proj1 (mk_design_iff p d) HD) as [D _]. assert (RT := ok_runtime _ D). assert (PT := ok_pretest _ D).
  assert (P50 := post_items p d HD).
  assert (NI : items <> []).
  { intros ->. simpl in EN. destruct (proj1 (mk_design_iff p d) HD) as [_ E]. rewrite E in P50. cbn [n_post] in P50.
    unfold spec_n_post, spec_n_pre in P50. rewrite <- EN in P50.
    assert (Z0 : forall q, trim_count q 0 = 0%Z). { intros q. unfold trim_count. rewrite rnd_0, Rmult_0_r, rnd_0. apply (Zfloor_IZR 0). }
    rewrite ?Z0 in P50. simpl in P50. rewrite ?Z0 in P50. lia. }
  destruct items as [|i0 items'] eqn:EI; [congruence|]. rewrite <- EI in *. assert (I0 : In i0 items) by (rewrite EI; now left).
  assert (ONE : forall w g, In w (zrange minimum (hi - runtime p + 1 + 1)) ->
    exists y st, estimate_primary_metric_stats argsort shuffle_of sample_of s w (f, g) = (y, Ok st)).
  { intros w g' Hw. apply Sim_Boot_Props.zrange_In in Hw. destruct (label_fun p w) as [lab|e] eqn:EL.
    2:{ exfalso. unfold label_fun in EL. destruct (crossover p) eqn:CR; [|discriminate]. destruct (ok_crossover _ D CR) as (wa & E & _). rewrite E in EL. discriminate. }
    assert (WK : forall q, In q (test_periods p) -> exists w', (w <= w' < w + runtime p)%Z /\ lab w' = Some q).
    { intros q Hq. unfold test_periods in Hq. unfold label_fun in EL. destruct (crossover p) eqn:CR.
      - destruct (ok_crossover _ D CR) as (wa & E & W1 & W2 & (half & EH)). rewrite E in EL.
        assert (EL' : lab = crossover_label w (pretest p) (2 * half) wa) by congruence. subst lab.
        destruct Hq as [<-|[<-|[]]].
        + exists (w + wa)%Z. split; [lia|]. apply (crossover_label_iff w (pretest p) half wa (w + wa)); try lia. unfold in_span. lia.
        + exists (w + half + wa)%Z. split; [lia|]. apply (crossover_label_iff w (pretest p) half wa (w + half + wa)); try lia. unfold in_span. lia.
      - assert (EL' : lab = regular_label w (pretest p) (runtime p)) by congruence. subst lab. destruct Hq as [<-|[]].
        exists w. split; [lia|]. apply (regular_label_iff w (pretest p) (runtime p) w); try lia. unfold in_span. lia. }
    assert (WP : (0 < pretest p)%Z -> lab (w - 1)%Z = Some "pretest").
    { intros PP. unfold label_fun in EL. destruct (crossover p) eqn:CR.
      - destruct (ok_crossover _ D CR) as (wa & E & W1 & W2 & (half & EH)). rewrite E in EL.
        assert (EL' : lab = crossover_label w (pretest p) (2 * half) wa) by congruence. subst lab.
        apply (crossover_label_iff w (pretest p) half wa (w - 1)); try lia. unfold in_span. lia.
      - assert (EL' : lab = regular_label w (pretest p) (runtime p)) by congruence. subst lab.
        apply (regular_label_iff w (pretest p) (runtime p) (w - 1)); try lia. unfold in_span. lia. }
    assert (OB : forall w' q, (lo <= w' <= hi)%Z -> lab w' = Some q -> observed p f lab item week q).
    { intros w' q Hw' Eq. destruct (BW i0 w' I0 Hw') as (r & Hr & _ & Ew). exists r. split; auto. exists w'. auto. }
    apply (c73_estimation_succeeds_iff argsort HS shuffle_of sample_of HSH p d HD HB s S1 w lab f g' EL).
    { now rewrite S2, S3. }
    rewrite S2, S3, S4. split; [repeat split; auto|]. split; [|split].
    - intros q Hq. destruct (WK q Hq) as (w' & Rw & E). apply (OB w'); auto. lia.
    - exists (List.length items). split; auto. exists (map (fun i => (i, [])) items). split; [|split; [apply map_length|]].
      + apply FinFun.Injective_map_NoDup; auto. intros a b E. congruence.
      + intros k. rewrite in_map_iff. split.
        * intros (i & <- & Hi). destruct (WK (hd "" (test_periods p))) as (w' & Rw & E).
          { unfold test_periods. destruct (crossover p); now left. }
          destruct (BW i w' Hi ltac:(lia)) as (r & Hr & Ek & Ew). exists r. eexists. split; [exact Hr|]. split; [exact Ek|]. exists w'. eauto.
        * intros (r & q & Hr & <- & _). destruct (BK r Hr) as (i & Hi & E). exists i. auto.
    - intros X. destruct (Z.eq_dec (pretest p) 0) as [E0|E0]; [exfalso; exact (no_pretest_no_trimming p d HD E0 X)|].
      apply (OB (w - 1)%Z); [lia|]. apply WP. lia. }
  destruct (c73_sizes_never_differ argsort shuffle_of sample_of p d HD s S1 f g _ EV) with (2 := ONE) as (y & a & sd & n & E & _).
  { intros E. assert (X := proj2 (Sim_Boot_Props.zrange_In minimum (hi - runtime p + 1 + 1) minimum) ltac:(lia)). rewrite E in X. destruct X. }
  assert (FY := E). apply (c73_averages_over_the_start_weeks argsort shuffle_of sample_of d s S1) in FY as (FY & _).
  destruct (c73_effect_never_fails T _ _ _ _ _ _ _ _ _ _ E) as (s' & mde & rel & H & _ & _ & _ & HX & _).
  exists s', y. split; auto. split; auto. congruence.
Qed.

(** *** Cases *)
(** sixty items in weeks 0 to 3 *)
Definition sixty : list string := map (fun n => String (Ascii.ascii_of_nat n) "") (seq 33 60).
Definition panel_frame : frame :=
  [("item", flat_map (fun i => repeat (CStr i) 4) sixty);
   ("week", flat_map (fun _ => map CZ [0; 1; 2; 3]%Z) sixty);
   ("clicks", map (fun n => CNum (Fin (INR n))) (seq 0 240))].
Lemma panel_rows : exists rows, frame_rows panel_frame ["clicks"] "item" "week" None = rows /\ calm rows /\ balanced rows sixty 0 3.
Proof.
  eexists. split; [reflexivity|].
  assert (SHAPE : forall r, In r (frame_rows panel_frame ["clicks"] "item" "week" None) -> exists i, p_vals r = [num_of_cell (nth i (col_or_nil "clicks" panel_frame) CNull)]).
  { intros r Hr. unfold frame_rows in Hr. apply in_flat_map in Hr as (i & _ & Hr). unfold frame_row in Hr.
    destruct (str_of_cell _); [|destruct Hr]. destruct Hr as [<-|[]]. exists i. reflexivity. }
  split.
  - intros r Hr. destruct (SHAPE r Hr) as (i & ->). repeat constructor.
    + change (col_or_nil "clicks" panel_frame) with (map (fun n => CNum (Fin (INR n))) (seq 0 240)).
      destruct (nth_in_or_default i (map (fun n => CNum (Fin (INR n))) (seq 0 240)) CNull) as [I|E].
      * apply in_map_iff in I as (n & E & _). rewrite <- E. discriminate.
      * rewrite E. discriminate.
    + change (col_or_nil "clicks" panel_frame) with (map (fun n => CNum (Fin (INR n))) (seq 0 240)).
      destruct (nth_in_or_default i (map (fun n => CNum (Fin (INR n))) (seq 0 240)) CNull) as [I|E].
      * apply in_map_iff in I as (n & E & _). rewrite <- E. discriminate.
      * rewrite E. discriminate.
  - set (key := fun r : prow akey => (p_key r, p_week r)).
    assert (KEYS : map key (frame_rows panel_frame ["clicks"] "item" "week" None) =
      flat_map (fun i => map (fun w => ((i, []), Some w)) [0; 1; 2; 3]%Z) sixty) by (vm_compute; reflexivity).
    split.
    + intros r Hr. assert (I := in_map key _ _ Hr). rewrite KEYS in I. apply in_flat_map in I as (i & Hi & I). exists i. split; auto.
      apply in_map_iff in I as (w & E & _). unfold key in E. congruence.
    + intros i w Hi Hw. assert (I : In ((i, []), Some w) (map key (frame_rows panel_frame ["clicks"] "item" "week" None))).
      { rewrite KEYS. apply in_flat_map. exists i. split; auto. apply in_map_iff. exists w. split; auto. simpl. lia. }
      apply in_map_iff in I as (r & E & Hr). unfold key in E. exists r. split; auto. split; congruence.
Qed.

Example c73_example : forall cross, exists s s' y,
  mk_sim (panel_design cross) panel_frame "item" "week" 1 "period" "arm" (1 / 20) = Ok s /\ valid_start_week_ids s = Ok [1; 2]%Z /\
  estimate_minimum_detectable_effect cauchy argsort_ref (fun (g : unit) n => (seq 0 n, g)) same_row s (panel_frame, tt) = ((s', y), Ok tt) /\
  sm_mde s' <> None.
Proof.
  intros cross. destruct panel_rows as (rows & ER & HC & HB).
  destruct (mk_sim (panel_design cross) panel_frame "item" "week" 1 "period" "arm" (1 / 20)) as [s|e] eqn:ES; [|discriminate].
  exists s. destruct (c73_balanced_data_can_be_estimated cauchy argsort_ref unit (fun g n => (seq 0 n, g)) same_row (panel_params cross) _ _ _ _ _ _ _ _ s sixty 0 3 tt
    argsort_ref_sorts (fun g n => Permutation_refl _) (panel_design_ok cross) ltac:(reflexivity) ES) as (s' & y & H & _ & N).
  - change (metric (panel_params cross)) with "clicks". now rewrite ER.
  - repeat split.
  - change (metric (panel_params cross)) with "clicks". now rewrite ER.
  - apply (proj2 (NoDup_count_occ string_dec sixty)). intros x. destruct (in_dec string_dec x sixty) as [I|N0].
    + revert x I. apply Forall_forall. repeat constructor; vm_compute; lia.
    + apply (proj1 (count_occ_not_In string_dec sixty x)) in N0. lia.
  - reflexivity.
  - reflexivity.
  - cbn. lia.
  - exists s', y. split; auto. split; auto. assert (X := f_equal (fun r => match r with Ok x => valid_start_week_ids x | Err e => Err e end) ES). symmetry in X. exact X.
Qed.

(** a history of calls that succeed: an estimation, then a validation (of no simulation), see C71 *)
Example c71_example_success : exists s y h, mk_sim (panel_design true) panel_frame "item" "week" 1 "period" "arm" (1 / 20) = Ok s /\
  history cauchy argsort_ref (fun (g : unit) n => (seq 0 n, g)) same_row alternate (fun g l => (hd 0%Z l, g)) (s, (panel_frame, tt)) h y /\
  succeeded is_estimate h /\ succeeded is_validate h.
Proof.
  destruct (c73_example true) as (s & s' & y & ES & _ & H & N).
  destruct (sm_mde s') as [mde|] eqn:EM; [|congruence].
  destruct (c71_validation_without_simulations cauchy argsort_ref (fun (g : unit) n => (seq 0 n, g)) same_row alternate (fun g l => (hd 0%Z l, g))
    (fun _ => Ok NaN) (fun _ _ _ _ => Ok NaN) (fun _ _ => Ok NaN) (s', y) mde EM) as (y' & H' & _).
  exists s, y', [(Validate 0, Ok tt); (Estimate, Ok tt)]. split; auto. split.
  - eapply h_call; [|exact H']. eapply h_call; [apply h_start|]. exact H.
  - split; [exists Estimate|exists (Validate 0)]; (split; [|simpl; auto]); [reflexivity|now exists 0%nat].
Qed.

Print Assumptions c73_estimation_succeeds_iff.
Print Assumptions c73_estimation_size.
Print Assumptions c73_averages_over_the_start_weeks.
Print Assumptions c73_no_start_week_is_an_error.
Print Assumptions c73_sizes_never_differ.
Print Assumptions c73_minimum_detectable_effect.
Print Assumptions c73_effect_never_fails.
Print Assumptions c73_balanced_data_can_be_estimated.
