(** C89: which regular designs can be validated. *)
From Coq Require Import ZArith Reals Lra Lia List String Bool Permutation Sorting.Sorted Classical.
From Flocq Require Import Core BinarySingleNaN.
Require Import Verif.Base Verif.Num Verif.NumOrd Verif.F64 Verif.Frame Verif.ListLib Verif.Design_Model Verif.Design_Spec Verif.Design_Proofs Verif.Design_Yaml_Proofs Verif.Design_Props
  Verif.Trimmed_Model Verif.Trimmed_Spec Verif.Moments Verif.Trimmed_Proofs Verif.Trimmed_Real Verif.Trimmed_Props
  Verif.Cuped_Model Verif.Cuped_Props Verif.Stats_Model Verif.Stats_Num Verif.Stats_Props Verif.Tests_Proofs
  Verif.Tests_Props Verif.Tests_Props2 Verif.Periods_Model Verif.Periods_Proofs Verif.Periods_Props Verif.Rows_Model Verif.Rows_Spec Verif.Pivot_Spec Verif.Assign_Spec Verif.Assign_Model Verif.Assign_Proofs Verif.Assign_Props
  Verif.Pivot_Model Verif.Pivot_Proofs Verif.Pivot_Props Verif.Analysis_Spec Verif.Analysis_Model Verif.Analysis_Props Verif.Analysis_Props2 Verif.Effect_Props
  Verif.Simulation_Model Verif.Sim_Names_Props Verif.Sim_Boot_Props Verif.Sim_State_Props Verif.Sim_Stats_Props Verif.Sim_Estimate_Props Verif.Sim_Effect_Props Verif.Regular_Props.
Import ListNotations.
Open Scope string_scope.
Open Scope list_scope.
Open Scope R_scope.

(** *** The arms of a simulated table are the ones drawn *)
Lemma drawn_arms {G} (arms_of : G -> nat -> list Z * G) t g item treat g' a : draws_arms arms_of -> NoDup (map fst (t_rows t)) ->
  apply_random_treatment_assignment arms_of t g item treat = (g', Ok a) ->
  map (fun r => snd (fst r)) (a_rows a) = fst (arms_of g (List.length (t_rows t))).
Proof.
  intros HAR NDI EA. assert (DI : dedup ikeqb (map fst (t_rows t)) = map fst (t_rows t)) by (apply dedup_id; auto; apply ikeqb_eq).
  unfold apply_random_treatment_assignment in EA. destruct (orb _ _); [discriminate|]. destruct (negb _); [discriminate|].
  rewrite DI, map_length in EA. destruct (HAR g (List.length (t_rows t))) as [LA _].
  destruct (arms_of g (List.length (t_rows t))) as [arms g5] eqn:EAR. destruct (existsb (String.eqb item) _); [discriminate|]. destruct (existsb (String.eqb treat) _); [discriminate|].
  assert (AC := f_equal (fun r => match snd r with Ok x => a_rows x | Err _ => [] end) EA). cbn [snd a_rows] in AC. rewrite <- AC, map_map. cbn [fst snd].
  cbn [fst] in LA. assert (Q := first_position_id (map fst (t_rows t)) arms NDI ltac:(now rewrite map_length)). rewrite map_map in Q. exact Q.
Qed.

(** *** Positive values *)
Lemma positive_total {A} (c : A -> bool) (v : A -> num) rows : (forall r, In r rows -> exists x, v r = Fin x /\ 0 < x) ->
  exists x, Rows_Spec.total c v rows = Fin x /\ 0 <= x /\ ((exists r, In r rows /\ c r = true) -> 0 < x).
Proof.
  intros H. induction rows as [|r rows IH]; [exists 0; repeat split; [lra|intros (r & [] & _)]|].
  destruct IH as (x & E & X0 & X1); [intros; apply H; now right|]. destruct (H r (or_introl eq_refl)) as (y & EY & Y0).
  unfold Rows_Spec.total in *. cbn [fold_right]. rewrite E, EY. destruct (c r) eqn:EC.
  - exists (y + x). split; [reflexivity|]. split; [lra|]. intros _. lra.
  - exists (0 + x). split; [reflexivity|]. split; [lra|]. intros (r' & [<-|I] & C); [congruence|]. assert (0 < x) by eauto. lra.
Qed.

Lemma positive_trimmed_mean xs s q : usable (List.length xs) q -> sorted_as xs s -> (forall x, In x xs -> 0 < x) ->
  0 < tmean (Z.to_nat (trim_each (List.length xs) q)) s.
Proof.
  intros U (P & _) PO. set (k := Z.to_nat _).
  assert (K2 : (2 * k < List.length s)%nat).
  { assert (L : List.length s = List.length xs) by (symmetry; now apply Permutation_length).
    destruct (mk_trimmed_usable argsort_ref [data xs] q (List.length xs) argsort_ref_sorts U) as (t & _ & _ & E & L2); [discriminate|intros r [<-|[]]; apply map_length|].
    unfold k. lia. }
  assert (Z : forall x, In x (middle k s) -> 0 < x).
  { intros x I. apply PO. apply (Permutation_in x (Permutation_sym P)). unfold middle in I.
    rewrite <- (firstn_skipn k s). apply in_or_app. right. rewrite <- (firstn_skipn (List.length s - 2 * k) (skipn k s)). apply in_or_app. now left. }
  assert (L : (0 < List.length (middle k s))%nat) by (unfold middle; rewrite firstn_length, skipn_length; lia).
  unfold tmean, avg. apply Rmult_lt_0_compat; [|apply Rinv_0_lt_compat; apply (lt_INR 0); exact L].
  revert L Z. generalize (middle k s). induction l as [|x l IH]; intros L Z; [inversion L|]. unfold Trimmed_Spec.total in *. cbn [fold_right].
  assert (0 < x) by (apply Z; now left). destruct l as [|y l]; [cbn; lra|].
  assert (0 < fold_right Rplus 0 (y :: l)) by (apply IH; [cbn; lia|intros; apply Z; now right]). lra.
Qed.

Lemma positive_controls T argsort a ys q : sorts argsort -> usable (List.length a) q -> usable (List.length ys) q -> (forall y, In y ys -> 0 < y) ->
  exists r, yuens_t_test_ind T argsort a (data ys) q None None false "two-sided" default_alpha = Ok r.
Proof.
  intros HS U1 U2 PO.
  destruct (ind_cases T argsort a (data ys) q HS U1 ltac:(unfold data; now rewrite map_length)) as (t1 & t2 & _ & E2 & _ & X). apply X.
  destruct (sorted_exists ys) as (s & Ss).
  destruct (one_sample_moments argsort ys s q t2 HS (usable_sample _ _ U2) Ss E2) as (K & _ & M & _).
  assert (Z.to_nat (trim_each (List.length ys) q) = t_k t2) by lia.
  assert (P := positive_trimmed_mean ys s q U2 Ss PO). rewrite M. rewrite H in P.
  apply andb_false_iff. right. apply not_true_iff_false. rewrite neqb_fin. lra.
Qed.

Section Regular.
Context (T : tdist) (argsort : list num -> list nat) (HS : sorts argsort).
Context (p : params) (d : design) (HD : mk_design p = Ok d) (CR : crossover p = false) (HB : (n_before p < 2 ^ 53)%Z).
Context {G : Type} (shuffle_of sample_of : G -> nat -> list nat * G) (arms_of : G -> nat -> list Z * G) (choice_of : G -> list Z -> Z * G).
Context (HSH : forall g, shuffles (fun k => fst (shuffle_of g k))) (HSP : samples_positions sample_of) (HAR : draws_arms arms_of).

(** the arms drawn for a simulation: one of them is empty *)
Definition leaves_an_arm_empty (arms : list Z) : Prop := ~ In 1%Z arms \/ ~ In 0%Z arms.

(** the table of a simulation, before and after the effect is added *)
Lemma regular_tables s w f g lab e :
  sm_design s = d -> label_fun p w = Ok lab -> calm (frame_rows f [metric p] (sm_item s) (sm_week s) None) ->
  plain_name (metric p) -> plain_name (sm_item s) -> ~ has_double_underscore (sm_treatment s) ->
  metric p <> sm_treatment s -> sm_item s <> sm_treatment s ->
  readable p f (sm_item s) (sm_week s) (sm_period s) -> observed p f lab (sm_item s) (sm_week s) "test" ->
  (exists n, n_items p f lab (sm_item s) (sm_week s) n /\ Z.of_nat n = n_before p) ->
  (pretrims p -> observed p f lab (sm_item s) (sm_week s) "pretest") ->
  exists g2 g3 t a l ab,
    get_pivoted_and_trimmed shuffle_of sample_of s w true (f, g) = ((f, g2), Ok t) /\
    apply_random_treatment_assignment arms_of t g2 (sm_item s) (sm_treatment s) = (g3, Ok a) /\
    let aa := mkT (t_cols t) (a_rows a) in
    as_table (metric p) a = Ok aa /\ finite_table aa /\
    Z.of_nat (List.length (t_rows aa)) = n_pre d /\ (50 < n_pre d)%Z /\ (n_pre d <= 2 ^ 53)%Z /\
    map (fun r => snd (fst r)) (t_rows aa) = fst (arms_of g2 (List.length (t_rows aa))) /\
    (forall q, In (metric p, q) (t_cols aa) <-> observed p f lab (sm_item s) (sm_week s) q) /\
    regular_items sim_arm aa (metric p) (map finite_pair l) /\
    apply_synthetic_treatment_effect sim_arm aa true p (metric p) e = Ok ab /\
    t_cols ab = t_cols aa /\ map fst (t_rows ab) = map fst (t_rows aa) /\
    regular_items sim_arm ab (metric p) (map (affected_regular (fun x => nadd x e)) (map finite_pair l)) /\
    (forall c v, holds aa c v -> c <> (metric p, "test") -> holds ab c v).
Proof.
  intros ES HL HC PM PI NU N1 N2 RD OT NI PT.
  destruct (simulated_table_exists p d HD HB shuffle_of sample_of HSH HSP s w f g lab ES HL HC RD NI PT ltac:(auto)) as (g2 & t & EG & LP & PC).
  destruct (c69_plain_names_come_back arms_of (metric p) (sm_item s) (sm_treatment s) t g2 PM PI NU N1 N2 PC) as (a & EA & ET).
  destruct (apply_random_treatment_assignment arms_of t g2 (sm_item s) (sm_treatment s)) as [g3 ra] eqn:EA'. cbn [snd] in EA. subst ra.
  set (aa := mkT (t_cols t) (a_rows a)) in *.
  destruct (simulated_table p d HD shuffle_of sample_of arms_of HSP HAR s w f g f g2 t g2 g3 a aa lab ES PM HL HC EG EA' ET) as (_ & FT & _ & OB & AV).
  assert (AR := proj1 (c69_every_item_gets_one_arm arms_of t g2 (sm_item s) (sm_treatment s) g3 a HAR EA')).
  assert (LA : List.length (t_rows aa) = List.length (t_rows t)) by (rewrite <- AR, map_length; reflexivity).
  destruct (c68_simulated_rows_have_distinct_ids G shuffle_of sample_of s w f g f g2 t HSP EG) as (NDI & _).
  assert (DA := drawn_arms arms_of t g2 _ _ g3 a HAR NDI EA').
  destruct NI as (n & _ & EN). destruct (design_counts p d HD ltac:(lia)) as (C1 & C2 & C3).
  destruct (finite_holds aa (metric p, "test") FT ltac:(now apply OB)) as (xs & H1 & L1).
  destruct (plain_items (map (fun r : ikey * Z * list num => sim_arm (fst r)) (t_rows aa)) xs ltac:(now rewrite map_length)) as (l & E0 & E1).
  assert (IT : regular_items sim_arm aa (metric p) (map finite_pair l)).
  { split; [unfold in_arms; rewrite map_map; cbn [finite_pair fst]; now rewrite <- E0|].
    unfold data in H1. rewrite <- E1 in H1. rewrite map_map in *. exact H1. }
  destruct (proj2 (c70_effect_can_be_applied_iff _ sim_arm aa true p (metric p) e)) as (ab & HE).
  { split; auto. rewrite CR. intros q [<-|[]]. now apply OB. }
  destruct (c70_effect_in_a_regular_experiment sim_arm aa ab p (metric p) e _ (proj1 FT) CR IT HE) as (CC & CK & IT' & OO).
  exists g2, g3, t, a, l, ab. cbv zeta. fold aa. rewrite <- LA in DA, LP. repeat (split; [now auto; lia|]). auto.
Qed.

(** one simulation *)
Lemma regular_simulation s f g e starts :
  sm_design s = d -> calm (frame_rows f [metric p] (sm_item s) (sm_week s) None) ->
  plain_name (metric p) -> plain_name (sm_item s) -> ~ has_double_underscore (sm_treatment s) ->
  metric p <> sm_treatment s -> sm_item s <> sm_treatment s ->
  valid_start_week_ids s = Ok starts -> starts <> [] -> (forall g l, l <> [] -> In (fst (choice_of g l)) l) ->
  (forall w lab, In w starts -> label_fun p w = Ok lab ->
     readable p f (sm_item s) (sm_week s) (sm_period s) /\
     observed p f lab (sm_item s) (sm_week s) "test" /\
     (exists n, n_items p f lab (sm_item s) (sm_week s) n /\ Z.of_nat n = n_before p) /\
     (pretest p <> 0%Z -> observed p f lab (sm_item s) (sm_week s) "pretest")) ->
  exists g' r g2 k, simulate_once T argsort shuffle_of sample_of arms_of choice_of s e (f, g) = ((f, g'), r) /\ (50 < Z.of_nat k)%Z /\
    let arms := fst (arms_of g2 k) in
    (r = Err empty_arm <-> leaves_an_arm_empty arms) /\
    (~ leaves_an_arm_empty arms -> r = Err zero_control \/ exists x, r = Ok x).
Proof.
  intros ES HC PM PI NU N1 N2 EV NE HCH HW.
  assert (EP : par (sm_design s) = p) by (rewrite ES; now rewrite (par_design p d HD)).
  unfold simulate_once. rewrite EP, EV. unfold sbind at 1. unfold sret at 1. unfold sbind at 1.
  destruct starts as [|w0 starts]; [congruence|]. unfold on_rng at 1. cbn [fst snd].
  assert (IW := HCH g (w0 :: starts) NE). destruct (choice_of g (w0 :: starts)) as [w g1]. cbn [fst] in IW.
  destruct (label_exists p d HD w) as (lab & HL). destruct (HW w lab IW HL) as (RD & OT & NI & PT).
  assert (PT' : pretrims p -> observed p f lab (sm_item s) (sm_week s) "pretest").
  { intros X. apply PT. intros P0. exact (no_pretest_no_trimming p d HD P0 X). }
  destruct (regular_tables s w f g1 lab e ES HL HC PM PI NU N1 N2 RD OT NI PT')
    as (g2 & g3 & t & a & l & ab & EG & EA & ET & FT & LP & L50 & L53 & DA & OB & IT & HE & CC & CK & IT' & OO).
  unfold sbind at 1. rewrite EG. unfold sbind at 1. unfold on_rng. cbn [fst snd]. rewrite EA. unfold sret. rewrite ET. cbn [bind].
  set (aa := mkT (t_cols t) (a_rows a)) in *.
  exists g3, (let! r_aa := analyze_single_metric T argsort sim_arm aa true p (metric p) None None in
        let! ab0 := apply_synthetic_treatment_effect sim_arm aa true p (metric p) e in
        let! r_ab := analyze_single_metric T argsort sim_arm ab0 true p (metric p) None None in
        Ok (r_aa, r_ab)), g2, (List.length (t_rows aa)).
  split; [reflexivity|]. split; [lia|]. cbv zeta. set (arms := fst (arms_of g2 (List.length (t_rows aa)))).
  assert (ND := proj1 FT). assert (ND' : NoDup (t_cols ab)) by now rewrite CC.
  assert (LR : List.length (t_rows ab) = List.length (t_rows aa)) by (apply (f_equal (@List.length _)) in CK; now rewrite !map_length in CK).
  assert (U : usable (List.length (t_rows aa)) (chosen p None)) by (apply (usable_design_post p d); auto; lia).
  assert (HI : forall x, arm_has_items sim_arm aa x <-> In x arms).
  { intros x. unfold arms. rewrite <- DA. unfold arm_has_items, sim_arm. rewrite in_map_iff. split; intros (r & A & B).
    - exists r. split; auto. congruence.
    - exists r. split; auto. congruence. }
  assert (HI' : forall x, arm_has_items sim_arm ab x <-> In x arms).
  { intros x. rewrite <- HI. unfold arm_has_items. clear - CK. split; intros (r & A & B).
    - assert (I : In (fst r) (map fst (t_rows aa))) by (rewrite <- CK; now apply in_map). apply in_map_iff in I as (r0 & E & I). exists r0. split; auto. now rewrite E.
    - assert (I : In (fst r) (map fst (t_rows ab))) by (rewrite CK; now apply in_map). apply in_map_iff in I as (r0 & E & I). exists r0. split; auto. now rewrite E. }
  assert (PRE : exists pre, match pre with Some x => holds aa (metric p, "pretest") x /\ holds ab (metric p, "pretest") x
     | None => pretest p = 0%Z /\ ~ In (metric p, "pretest") (t_cols aa) end).
  { destruct (Z.eq_dec (pretest p) 0) as [P0|P0].
    - exists None. split; auto. intros I. apply OB in I as (r & _ & wk & _ & EL). exact (no_pretest_label p d HD w lab "pretest" HL CR P0 wk EL eq_refl).
    - destruct (finite_holds aa (metric p, "pretest") FT) as (xs & HX & _); [apply OB, PT, P0|].
      exists (Some (data xs)). split; auto. apply OO; auto. congruence. }
  destruct PRE as (pre & HP).
  destruct (c89_what_stops_a_regular_analysis sim_arm T argsort aa p (metric p) None _ pre HS ND CR U (proj2 IT)) as [A1 A2]; [destruct pre; tauto|].
  destruct (c89_what_stops_a_regular_analysis sim_arm T argsort ab p (metric p) None _ pre HS ND' CR ltac:(now rewrite LR) (proj2 IT')) as [B1 B2]; [rewrite CC; destruct pre; tauto|].
  rewrite !HI in A1, A2. rewrite !HI' in B1, B2. fold (leaves_an_arm_empty arms) in A1, B1.
  rewrite HE. cbn [bind].
  destruct (classic (leaves_an_arm_empty arms)) as [X|X].
  - rewrite (proj2 A1 X). cbn [bind]. tauto.
  - assert (I1 : In 1%Z arms) by (apply NNPP; intros Y; apply X; now left). assert (I0 : In 0%Z arms) by (apply NNPP; intros Y; apply X; now right).
    destruct (A2 I1 I0) as [-> |(ra & ->)]; cbn [bind].
    + split; [split; [discriminate|tauto]|auto].
    + destruct (B2 I1 I0) as [-> |(rb & ->)]; cbn [bind]; (split; [split; [discriminate|tauto]|eauto]).
Qed.

(** one simulation of a positive metric *)
Lemma positive_simulation s f g e starts :
  sm_design s = d -> calm (frame_rows f [metric p] (sm_item s) (sm_week s) None) ->
  plain_name (metric p) -> plain_name (sm_item s) -> ~ has_double_underscore (sm_treatment s) ->
  metric p <> sm_treatment s -> sm_item s <> sm_treatment s ->
  valid_start_week_ids s = Ok starts -> starts <> [] -> (forall g l, l <> [] -> In (fst (choice_of g l)) l) ->
  (forall w lab, In w starts -> label_fun p w = Ok lab ->
     readable p f (sm_item s) (sm_week s) (sm_period s) /\
     observed p f lab (sm_item s) (sm_week s) "test" /\
     (exists n, n_items p f lab (sm_item s) (sm_week s) n /\ Z.of_nat n = n_before p)) ->
  pretest p = 0%Z ->
  (forall r, In r (frame_rows f [metric p] (sm_item s) (sm_week s) None) -> exists v, p_vals r = [Fin v] /\ 0 < v) ->
  (forall g k, (50 < Z.of_nat k)%Z -> ~ leaves_an_arm_empty (fst (arms_of g k))) ->
  exists g' x, simulate_once T argsort shuffle_of sample_of arms_of choice_of s e (f, g) = ((f, g'), Ok x).
Proof.
  intros ES HC PM PI NU N1 N2 EV NE HCH HW P0 POS FAIR.
  assert (EP : par (sm_design s) = p) by (rewrite ES; now rewrite (par_design p d HD)).
  unfold simulate_once. rewrite EP, EV. unfold sbind at 1. unfold sret at 1. unfold sbind at 1.
  destruct starts as [|w0 starts]; [congruence|]. unfold on_rng at 1. cbn [fst snd].
  assert (IW := HCH g (w0 :: starts) NE). destruct (choice_of g (w0 :: starts)) as [w g1]. cbn [fst] in IW.
  destruct (label_exists p d HD w) as (lab & HL). destruct (HW w lab IW HL) as (RD & OT & NI).
  assert (PT' : pretrims p -> observed p f lab (sm_item s) (sm_week s) "pretest").
  { intros X. destruct (no_pretest_no_trimming p d HD P0 X). }
  destruct (regular_tables s w f g1 lab e ES HL HC PM PI NU N1 N2 RD OT NI PT')
    as (g2 & g3 & t & a & l & ab & EG & EA & ET & FT & LP & L50 & L53 & DA & OB & IT & HE & CC & CK & IT' & OO).
  unfold sbind at 1. rewrite EG. unfold sbind at 1. unfold on_rng. cbn [fst snd]. rewrite EA. unfold sret. rewrite ET. cbn [bind].
  assert (VAL : forall r, In r (t_rows t) -> exists v, snd r = [Fin v] /\ 0 < v).
  { destruct (c68_simulated_rows_have_distinct_ids G shuffle_of sample_of s w f g1 f g2 t HSP EG) as (_ & t0 & PV & TC & _ & RW).
    intros r Hr. apply RW in Hr as (i & r0 & _ & _ & H0 & ->). clear RW.
    rewrite EP in PV. destruct (pivot_time_assignment f p w [metric p] (sm_item s) (sm_week s) None (sm_period s)) as [f' rr] eqn:PVE. cbn [snd] in PV. subst rr.
    destruct (sim_pivot_inv p f w lab HL (sm_item s) (sm_week s) (sm_period s) f' t0 PVE) as (_ & _ & PR).
    assert (TB := pivot_rows_tab akeqb akleb akey_ord p d w lab [metric p] _ t0 HD HL HC PR).
    destruct (c14_values_are_weekly_averages _ _ _ p d w lab [metric p] _ t0 akey_ord HD HL HC ltac:(discriminate) PR) as (CK0 & _ & CCo & _).
    assert (COLS : t_cols t0 = [(metric p, "test")]).
    { destruct (sim_table p d HD f w lab HL (sm_item s) (sm_week s) HC t0 PR) as (F0 & _ & _ & _ & _). destruct F0 as [F0 _].
      assert (ALL : forall c, In c (t_cols t0) -> c = (metric p, "test")).
      { intros [m q] I. apply CCo in I as ([<-|[]] & r1 & _ & wk & _ & EL). f_equal.
        assert (NP := no_pretest_label p d HD w lab q HL CR P0 wk EL).
        assert (LB : q = "pretest" \/ q = "test").
        { unfold label_fun in HL. rewrite CR in HL. assert (lab = regular_label w (pretest p) (runtime p)) by congruence. subst lab. unfold regular_label, overwrite in EL.
          repeat match type of EL with context [if ?b then _ else _] => destruct b end; inversion EL; auto. }
        destruct LB; [contradiction|auto]. }
      assert (I : In (metric p, "test") (t_cols t0)) by (apply CCo; split; [now left|exact OT]).
      destruct (t_cols t0) as [|c [|c' cs]]; [destruct I|f_equal; apply ALL; now left|].
      exfalso. inversion F0 as [|? ? X _]; subst. apply X. rewrite (ALL c) by now left. rewrite (ALL c') by (right; now left). now left. }
    assert (K0 : In (fst r0) (map fst (t_rows t0))) by now apply in_map.
    apply CK0 in K0 as (r1 & q & H1 & EK & wk & WK & EL).
    assert (Q : q = "test").
    { assert (X : In (metric p, q) (t_cols t0)) by (apply CCo; split; [now left|exists r1; split; auto; exists wk; auto]). rewrite COLS in X. destruct X as [X|[]]. congruence. }
    subst q. rewrite TB in H0, COLS. cbn [tab t_rows t_cols] in H0, COLS. apply in_map_iff in H0 as (k & <- & _). cbn [fst] in EK. cbn [snd]. rewrite COLS. cbn [map fst snd].
    destruct (positive_total (is_at akeqb lab k "test") (metric_value [metric p] (metric p)) (frame_rows f [metric p] (sm_item s) (sm_week s) None)) as (x & EX & _ & XP).
    { intros r2 Hr2. destruct (POS r2 Hr2) as (v & EV' & V0). exists v. split; auto. unfold metric_value. rewrite EV'. cbn [combine assoc]. now rewrite String.eqb_refl. }
    rewrite EX. destruct (weeks_of_card p d lab w "test" HD HL (ex_intro _ wk EL)) as [_ WP].
    rewrite ndiv_fin by (apply not_0_IZR; lia). eexists. split; [reflexivity|].
    apply Rmult_lt_0_compat; [|apply Rinv_0_lt_compat; apply (IZR_lt 0); lia]. apply XP. exists r1. split; auto.
    apply (is_at_iff akeqb akleb akey_ord). split; auto. apply row_label_in. exists wk. auto. }
  set (aa := mkT (t_cols t) (a_rows a)) in *.
  assert (ND := proj1 FT). assert (ND' : NoDup (t_cols ab)) by now rewrite CC.
  assert (NP : ~ In (metric p, "pretest") (t_cols aa)).
  { intros I. apply OB in I as (r & _ & wk & _ & EL). exact (no_pretest_label p d HD w lab "pretest" HL CR P0 wk EL eq_refl). }
  assert (U : usable (List.length (t_rows aa)) (chosen p None)) by (apply (usable_design_post p d); auto; lia).
  assert (AR := proj1 (c69_every_item_gets_one_arm arms_of t g2 (sm_item s) (sm_treatment s) g3 a HAR EA)).
  assert (LL : List.length l = List.length (t_rows aa)) by (destruct IT as [IA _]; apply (f_equal (@List.length _)) in IA; now rewrite !map_length in IA).
  assert (PL : forall x, In x l -> 0 < snd x).
  { destruct IT as [_ (i & Hi & F)]. intros x I.
    assert (X : forall y, In y (map snd (map finite_pair l)) -> exists v, y = Fin v /\ 0 < v).
    { clear - F VAL AR. intros y I. change (t_rows aa) with (a_rows a) in F.
      assert (V : forall r, In r (a_rows a) -> exists v, snd r = [Fin v] /\ 0 < v).
      { intros r Hr. apply (VAL (fst (fst r), snd r)). rewrite <- AR. apply in_map_iff. now exists r. }
      clear VAL AR. induction F as [|r z rows zs E F IH]; [destruct I|destruct I as [<-|I]; [|apply IH; auto; intros; apply V; now right]].
      destruct (V r (or_introl eq_refl)) as (v & EV & V0). rewrite EV in E. exists v. split; auto. destruct i as [|[|i]]; cbn in E; congruence. }
    destruct (X (Fin (snd x))) as (v & E & V0); [rewrite map_map; apply in_map_iff; exists x; auto|]. congruence. }
  assert (IN : forall x, In x (fst (arms_of g2 (List.length (t_rows aa)))) -> values_of_arm x l <> []).
  { intros x I. rewrite <- DA in I. destruct IT as [IA _]. unfold in_arms in IA.
    assert (J : In (Some x) (map fst (map finite_pair l))).
    { rewrite <- IA. apply in_map_iff in I as (r & E & I). apply in_map_iff. exists r. split; auto. unfold sim_arm. now rewrite E. }
    rewrite map_map in J. apply in_map_iff in J as (y & E & J). cbn [finite_pair fst] in E. intros Z.
    assert (K : In (snd y) (values_of_arm x l)) by (unfold values_of_arm; apply in_map_iff; exists y; split; auto; apply filter_In; split; auto; rewrite E; apply Z.eqb_refl).
    rewrite Z in K. destruct K. }
  assert (FA := FAIR g2 (List.length (t_rows aa)) ltac:(lia)). unfold leaves_an_arm_empty in FA.
  assert (I1 : values_of_arm 1 l <> []) by (apply IN, NNPP; intros Y; apply FA; now left).
  assert (I0 : values_of_arm 0 l <> []) by (apply IN, NNPP; intros Y; apply FA; now right).
  assert (US : forall x, values_of_arm x l <> [] -> usable (List.length (values_of_arm x l)) (chosen p None)).
  { intros x N. destruct U as (_ & B & Q). split; [destruct (values_of_arm x l); [congruence|cbn; lia]|]. split; auto.
    assert (X : (List.length (values_of_arm x l) <= List.length l)%nat) by (unfold values_of_arm; rewrite map_length; apply Rank.filter_length_le). lia. }
  assert (PV : forall y, In y (values_of_arm 0 l) -> 0 < y).
  { intros y I. unfold values_of_arm in I. apply in_map_iff in I as (x & <- & I). apply filter_In in I as [I _]. auto. }
  rewrite (analysis_regular sim_arm T argsort aa p (metric p) _ None ND CR P0 NP IT), !values_finite.
  destruct (positive_controls T argsort (data (values_of_arm 1 l)) (values_of_arm 0 l) (chosen p None) HS ltac:(unfold data; rewrite map_length; auto) ltac:(auto) PV) as (ra & ->).
  cbn [bind]. rewrite HE. cbn [bind].
  rewrite (analysis_regular sim_arm T argsort ab p (metric p) _ None ND' CR P0 ltac:(now rewrite CC) IT').
  assert (V0 : values_of_arm 0 (map (affected_regular (fun x => nadd x e)) (map finite_pair l)) = data (values_of_arm 0 l)).
  { rewrite <- values_finite. generalize (map finite_pair l). clear. induction l as [|[o v] l IH]; auto. cbn [map]. rewrite !values_cons, IH. f_equal.
    unfold affected_regular. destruct o as [[|[q|q|]|q]|]; reflexivity. }
  assert (V1 : List.length (values_of_arm 1 (map (affected_regular (fun x => nadd x e)) (map finite_pair l))) = List.length (values_of_arm 1 l)).
  { unfold values_of_arm. rewrite !map_length. clear. induction l as [|[o v] l IH]; auto. cbn [map filter]. unfold affected_regular at 1, finite_pair at 1. cbn [fst snd].
    destruct o as [[|[q|q|]|q]|]; first [exact IH|exact (f_equal S IH)]. }
  rewrite V0.
  destruct (positive_controls T argsort (values_of_arm 1 (map (affected_regular (fun x => nadd x e)) (map finite_pair l))) (values_of_arm 0 l) (chosen p None) HS
    ltac:(rewrite V1; auto) ltac:(auto) PV) as (rb & ->).
  cbn [bind]. eauto.
Qed.
End Regular.

(** what a successful estimation tells about the data *)
Lemma estimated_data T argsort G (shuffle_of sample_of : G -> nat -> list nat * G) s f g s1 x1 :
  sorts argsort -> (forall g, shuffles (fun k => fst (shuffle_of g k))) ->
  let p := par (sm_design s) in
  mk_design p = Ok (sm_design s) -> crossover p = false -> (n_before p < 2 ^ 53)%Z ->
  calm (frame_rows f [metric p] (sm_item s) (sm_week s) None) ->
  estimate_minimum_detectable_effect T argsort shuffle_of sample_of s (f, g) = ((s1, x1), Ok tt) ->
  fst x1 = f /\ sm_design s1 = sm_design s /\ sm_item s1 = sm_item s /\ sm_week s1 = sm_week s /\ sm_period s1 = sm_period s /\ sm_treatment s1 = sm_treatment s /\
  (exists e, sm_mde s1 = Some e) /\
  exists starts, valid_start_week_ids s = Ok starts /\ valid_start_week_ids s1 = Ok starts /\ starts <> [] /\
    forall w lab, In w starts -> label_fun p w = Ok lab ->
     readable p f (sm_item s) (sm_week s) (sm_period s) /\
     observed p f lab (sm_item s) (sm_week s) "test" /\
     (exists n, n_items p f lab (sm_item s) (sm_week s) n /\ Z.of_nat n = n_before p).
Proof.
  intros HS HSH p HD CR HB HC H. unfold estimate_minimum_detectable_effect in H.
  destruct (estimate_average_primary_metric_stats argsort shuffle_of sample_of s (f, g)) as [x [[[a sd] k]|]] eqn:EA; [|discriminate].
  destruct (minimum_detectable_effect_of _ _ _ _ _) as [[mde rel]|]; [|discriminate].
  assert (ES : s1 = mkSim (sm_design s) (sm_item s) (sm_week s) (sm_min s) (sm_max s) (sm_period s) (sm_treatment s) (sm_threshold s)
              (Some mde) (Some rel) (Some a) (Some sd) (sm_aa s) (sm_ab s)) by congruence.
  assert (x1 = x) by congruence. subst x1. clear H.
  unfold estimate_average_primary_metric_stats in EA. unfold sbind at 1 in EA. unfold sret at 1 in EA.
  destruct (valid_start_week_ids s) as [starts|] eqn:EV; [|discriminate]. unfold sbind at 1 in EA.
  destruct (smap (estimate_primary_metric_stats argsort shuffle_of sample_of s) starts (f, g)) as [y [stats|]] eqn:EM2; [|discriminate].
  unfold sret in EA. assert (y = x) by congruence. subst y.
  apply (smap_inv argsort shuffle_of sample_of (sm_design s) s eq_refl) in EM2 as [EF F2].
  assert (NE : starts <> []). { intros ->. inversion F2; subst. discriminate. }
  split; [exact EF|]. do 5 (split; [now rewrite ES|]). split; [exists mde; now rewrite ES|].
  exists starts. split; auto. split; [rewrite <- EV, ES; reflexivity|]. split; auto. intros w lab Iw HL.
  assert (X : exists g1 y st, estimate_primary_metric_stats argsort shuffle_of sample_of s w (f, g1) = (y, Ok st)).
  { clear - F2 Iw. induction F2 as [|w' st l l' (ga & gb & E) _ IH]; [destruct Iw|destruct Iw as [->|Iw]; eauto]. }
  destruct X as (ga & y & st & E).
  destruct (proj1 (c73_estimation_succeeds_iff argsort HS shuffle_of sample_of HSH p (sm_design s) HD HB s eq_refl w lab f ga HL HC)) as (A & B & C & _); [eauto|].
  split; auto. split; auto. apply B. unfold test_periods. rewrite CR. now left.
Qed.

Theorem c89_what_stops_a_regular_validation :
  forall T argsort G (shuffle_of sample_of : G -> nat -> list nat * G) arms_of choice_of s f g s1 x1,
    sorts argsort -> (forall g, shuffles (fun k => fst (shuffle_of g k))) -> samples_positions sample_of -> draws_arms arms_of ->
    (forall g l, l <> [] -> In (fst (choice_of g l)) l) ->
    let p := par (sm_design s) in
    mk_design p = Ok (sm_design s) -> crossover p = false -> (n_before p < 2 ^ 53)%Z ->
    calm (frame_rows f [metric p] (sm_item s) (sm_week s) None) ->
    plain_name (metric p) -> plain_name (sm_item s) -> ~ has_double_underscore (sm_treatment s) ->
    metric p <> sm_treatment s -> sm_item s <> sm_treatment s ->
    (* the data has rows in the pretest period of every start week *)
    (pretest p <> 0%Z -> forall starts w lab, valid_start_week_ids s = Ok starts -> In w starts -> label_fun p w = Ok lab ->
       observed p f lab (sm_item s) (sm_week s) "pretest") ->
    estimate_minimum_detectable_effect T argsort shuffle_of sample_of s (f, g) = ((s1, x1), Ok tt) ->
    forall n g', exists s2 x2 r, run_validate_design T argsort shuffle_of sample_of arms_of choice_of s1 n (f, g') = ((s2, x2), r) /\
      (r = Ok tt \/ r = Err zero_control \/
       r = Err empty_arm /\ exists g2 k, (50 < Z.of_nat k)%Z /\ leaves_an_arm_empty (fst (arms_of g2 k))).
Proof.
  intros T argsort G shuffle_of sample_of arms_of choice_of s f g s1 x1 HS HSH HSP HAR HCH p HD CR HB HC PM PI NU N1 N2 OP H n g'.
  destruct (estimated_data T argsort G shuffle_of sample_of s f g s1 x1 HS HSH HD CR HB HC H) as (_ & S1 & S2 & S3 & S4 & S5 & (e & EM) & starts & EV & EV1 & NE & HW).
  fold p in HW. unfold run_validate_design. rewrite EM.
  assert (ONE : forall g0, exists g' r, simulate_once T argsort shuffle_of sample_of arms_of choice_of s1 e (f, g0) = ((f, g'), r) /\
    ((exists x, r = Ok x) \/ r = Err zero_control \/ r = Err empty_arm /\ exists g2 k, (50 < Z.of_nat k)%Z /\ leaves_an_arm_empty (fst (arms_of g2 k)))).
  { intros g0. destruct (regular_simulation T argsort HS p (sm_design s) HD CR HB shuffle_of sample_of arms_of choice_of HSH HSP HAR s1 f g0 e starts)
      as (g1 & r & g2 & k & E & K & A & B); rewrite ?S2, ?S3, ?S4, ?S5; auto.
    - intros w lab Iw HL. destruct (HW w lab Iw HL) as (X & Y & Z). repeat (split; auto). intros P0. exact (OP P0 starts w lab EV Iw HL).
    - exists g1, r. split; auto. destruct (classic (leaves_an_arm_empty (fst (arms_of g2 k)))) as [L|L].
      + right. right. split; [now apply A|]. eauto.
      + destruct (B L); auto. }
  assert (ALL : forall l g0, exists y r, smap (fun _ : nat => simulate_once T argsort shuffle_of sample_of arms_of choice_of s1 e) l (f, g0) = (y, r) /\
    ((exists x, r = Ok x) \/ r = Err zero_control \/ r = Err empty_arm /\ exists g2 k, (50 < Z.of_nat k)%Z /\ leaves_an_arm_empty (fst (arms_of g2 k)))).
  { induction l as [|i l IH]; intros g0; cbn [smap]; [unfold sret; eauto 6|]. unfold sbind.
    destruct (ONE g0) as (g2 & r & -> & [(x & ->)|[-> |[-> X]]]).
    - destruct (IH g2) as (y & rs & -> & [(x2 & ->)|[-> |[-> X]]]); unfold sret; eexists _, _; (split; [reflexivity|]).
      + left. eauto.
      + right. left. reflexivity.
      + right. right. auto.
    - eexists _, _. split; [reflexivity|]. right. left. reflexivity.
    - eexists _, _. split; [reflexivity|]. right. right. auto. }
  destruct (ALL (seq 0 n) g') as (y & r & -> & [(x & ->)|[-> |[-> X]]]); eexists _, _, _; (split; [reflexivity|]); auto.
Qed.

Theorem c89_positive_metrics_can_be_validated :
  forall T argsort G (shuffle_of sample_of : G -> nat -> list nat * G) arms_of choice_of s f g s1 x1,
    sorts argsort -> (forall g, shuffles (fun k => fst (shuffle_of g k))) -> samples_positions sample_of -> draws_arms arms_of ->
    (forall g l, l <> [] -> In (fst (choice_of g l)) l) ->
    let p := par (sm_design s) in let rows := frame_rows f [metric p] (sm_item s) (sm_week s) None in
    mk_design p = Ok (sm_design s) -> crossover p = false -> (n_before p < 2 ^ 53)%Z ->
    plain_name (metric p) -> plain_name (sm_item s) -> ~ has_double_underscore (sm_treatment s) ->
    metric p <> sm_treatment s -> sm_item s <> sm_treatment s ->
    pretest p = 0%Z -> (forall r, In r rows -> exists v, p_vals r = [Fin v] /\ 0 < v) ->
    (forall g k, (50 < Z.of_nat k)%Z -> ~ leaves_an_arm_empty (fst (arms_of g k))) ->
    estimate_minimum_detectable_effect T argsort shuffle_of sample_of s (f, g) = ((s1, x1), Ok tt) ->
    forall n g', exists s2 x2, run_validate_design T argsort shuffle_of sample_of arms_of choice_of s1 n (f, g') = ((s2, x2), Ok tt).
Proof.
  intros T argsort G shuffle_of sample_of arms_of choice_of s f g s1 x1 HS HSH HSP HAR HCH p rows HD CR HB PM PI NU N1 N2 P0 POS FAIR H n g'.
  assert (HC : calm rows).
  { intros r Hr. destruct (POS r Hr) as (v & -> & _). repeat constructor; discriminate. }
  destruct (estimated_data T argsort G shuffle_of sample_of s f g s1 x1 HS HSH HD CR HB HC H) as (_ & S1 & S2 & S3 & S4 & S5 & (e & EM) & starts & EV & EV1 & NE & HW).
  fold p in HW. unfold run_validate_design. rewrite EM.
  assert (ONE : forall g0, exists g' x, simulate_once T argsort shuffle_of sample_of arms_of choice_of s1 e (f, g0) = ((f, g'), Ok x)).
  { intros g0. apply (positive_simulation T argsort HS p (sm_design s) HD CR HB shuffle_of sample_of arms_of choice_of HSH HSP HAR s1 f g0 e starts); rewrite ?S2, ?S3, ?S4, ?S5; auto. }
  assert (ALL : forall l g0, exists y rs, smap (fun _ : nat => simulate_once T argsort shuffle_of sample_of arms_of choice_of s1 e) l (f, g0) = (y, Ok rs)).
  { induction l as [|i l IH]; intros g0; cbn [smap]; [unfold sret; eauto|]. unfold sbind.
    destruct (ONE g0) as (g2 & r & ->). destruct (IH g2) as (y & rs & ->). unfold sret. eauto. }
  destruct (ALL (seq 0 n) g') as (y & rs & ->). eauto.
Qed.

(** *** Cases *)
(** sixty items with positive values in weeks 0 to 3, and a design without pretest period *)
Definition sale_params : params := mkParams 60 2 "clicks" 0 false f0 f0 f0 None (flit 5 100) (flit 8 10) None.
Definition sale_design : design := mkDesignRec sale_params 60 60.
Lemma sale_design_ok : mk_design sale_params = Ok sale_design.
Proof. apply mk_design_check; vm_compute; reflexivity. Qed.
Definition sale_frame : frame :=
  [("item", flat_map (fun i => repeat (CStr i) 4) sixty);
   ("week", flat_map (fun _ => map CZ [0; 1; 2; 3]%Z) sixty);
   ("clicks", map (fun n => CNum (Fin (1 + INR n))) (seq 0 240))].
Lemma sale_rows : let rows := frame_rows sale_frame ["clicks"] "item" "week" None in
  (forall r, In r rows -> exists v, p_vals r = [Fin v] /\ 0 < v) /\ balanced rows sixty 0 3.
Proof.
  intros rows. split.
  - intros r Hr. unfold rows, frame_rows in Hr. apply in_flat_map in Hr as (i & Hi & Hr). unfold frame_row in Hr.
    destruct (str_of_cell _); [|destruct Hr]. destruct Hr as [<-|[]]. cbn [p_vals map].
    change (col_or_nil "clicks" sale_frame) with (map (fun n => CNum (Fin (1 + INR n))) (seq 0 240)).
    apply in_seq in Hi as [_ Hi]. change (i < 240)%nat in Hi.
    exists (1 + INR i). split; [|assert (X := pos_INR i); lra]. f_equal.
    rewrite (nth_indep _ CNull (CNum (Fin (1 + INR 0)))) by (rewrite map_length, seq_length; exact Hi).
    rewrite (map_nth (fun n => CNum (Fin (1 + INR n)))), seq_nth by exact Hi. reflexivity.
  - set (key := fun r : prow akey => (p_key r, p_week r)).
    assert (KEYS : map key rows = flat_map (fun i => map (fun w => ((i, []), Some w)) [0; 1; 2; 3]%Z) sixty) by (vm_compute; reflexivity).
    split.
    + intros r Hr. assert (I := in_map key _ _ Hr). rewrite KEYS in I. apply in_flat_map in I as (i & Hi & I). exists i. split; auto.
      apply in_map_iff in I as (w & E & _). unfold key in E. congruence.
    + intros i w Hi Hw. assert (I : In ((i, []), Some w) (map key rows)).
      { rewrite KEYS. apply in_flat_map. exists i. split; auto. apply in_map_iff. exists w. split; auto. simpl. lia. }
      apply in_map_iff in I as (r & E & Hr). unfold key in E. exists r. split; auto. split; congruence.
Qed.
Lemma sale_estimate : exists s s1 x1,
  mk_sim sale_design sale_frame "item" "week" 0 "period" "arm" (1 / 20) = Ok s /\
  sm_design s = sale_design /\ sm_item s = "item" /\ sm_week s = "week" /\ sm_treatment s = "arm" /\
  estimate_minimum_detectable_effect cauchy argsort_ref (fun (g : unit) n => (seq 0 n, g)) same_row s (sale_frame, tt) = ((s1, x1), Ok tt).
Proof.
  destruct sale_rows as [PR BR].
  destruct (mk_sim sale_design sale_frame "item" "week" 0 "period" "arm" (1 / 20)) as [s|e] eqn:ES; [|discriminate].
  assert (X := f_equal (fun r => match r with Ok x => Some (sm_design x, sm_item x, sm_week x, sm_treatment x) | Err _ => None end) ES).
  assert (Y : Some (sale_design, "item", "week", "arm") = Some (sm_design s, sm_item s, sm_week s, sm_treatment s)) by exact X. clear X.
  destruct (c73_balanced_data_can_be_estimated cauchy argsort_ref unit (fun g n => (seq 0 n, g)) same_row sale_params _ _ _ _ _ _ _ _ s sixty 0 3 tt
    argsort_ref_sorts (fun g n => Permutation_refl _) sale_design_ok ltac:(reflexivity) ES) as (s' & y & H & _).
  - intros r Hr. destruct (PR r Hr) as (v & -> & _). repeat constructor; discriminate.
  - repeat split.
  - exact BR.
  - apply (proj2 (NoDup_count_occ string_dec sixty)). intros x. destruct (in_dec string_dec x sixty) as [I|N0].
    + revert x I. apply Forall_forall. repeat constructor; vm_compute; lia.
    + apply (proj1 (count_occ_not_In string_dec sixty x)) in N0. lia.
  - reflexivity.
  - reflexivity.
  - cbn. lia.
  - exists s, s', y. repeat split; try congruence.
Qed.

Definition all_treated (g : unit) (n : nat) : list Z * unit := (repeat 1%Z n, g).
Lemma all_treated_draws : draws_arms all_treated.
Proof. intros g n. cbn. split; [apply repeat_length|]. intros a I. apply repeat_spec in I. auto. Qed.

(** an unlucky draw of the arms stops the validation *)
Theorem c89_estimated_regular_designs_can_be_validated_refuted :
  exists (T : tdist) argsort (shuffle_of sample_of : unit -> nat -> list nat * unit) arms_of choice_of s f s1 x1,
    sorts argsort /\ (forall g, shuffles (fun k => fst (shuffle_of g k))) /\ samples_positions sample_of /\ draws_arms arms_of /\
    (forall g l, l <> [] -> In (fst (choice_of g l)) l) /\
    mk_design (par (sm_design s)) = Ok (sm_design s) /\ crossover (par (sm_design s)) = false /\
    (forall r, In r (frame_rows f [metric (par (sm_design s))] (sm_item s) (sm_week s) None) -> exists v, p_vals r = [Fin v] /\ 0 < v) /\
    estimate_minimum_detectable_effect T argsort shuffle_of sample_of s (f, tt) = ((s1, x1), Ok tt) /\
    snd (run_validate_design T argsort shuffle_of sample_of arms_of choice_of s1 1 (f, tt)) = Err empty_arm.
Proof.
  destruct sale_estimate as (s & s1 & x1 & _ & D1 & D2 & D3 & D4 & H). destruct sale_rows as [PR _].
  assert (HSH : forall g : unit, shuffles (fun k => fst (seq 0 k, g))) by (intros g k; apply Permutation_refl).
  assert (HCH : forall (g : unit) l, l <> [] -> In (fst (hd 0%Z l, g)) l) by (intros g [|w l] NE; [congruence|now left]).
  assert (HD : mk_design (par (sm_design s)) = Ok (sm_design s)) by (rewrite D1; apply sale_design_ok).
  assert (CR : crossover (par (sm_design s)) = false) by (now rewrite D1).
  assert (HN : (n_before (par (sm_design s)) < 2 ^ 53)%Z) by (rewrite D1; reflexivity).
  assert (POS : forall r, In r (frame_rows sale_frame [metric (par (sm_design s))] (sm_item s) (sm_week s) None) -> exists v, p_vals r = [Fin v] /\ 0 < v)
    by (rewrite D1, D2, D3; exact PR).
  assert (HC : calm (frame_rows sale_frame [metric (par (sm_design s))] (sm_item s) (sm_week s) None)).
  { intros r Hr. destruct (POS r Hr) as (v & -> & _). repeat constructor; discriminate. }
  exists cauchy, argsort_ref, (fun g n => (seq 0 n, g)), same_row, all_treated, (fun g l => (hd 0%Z l, g)), s, sale_frame, s1, x1.
  split; [exact argsort_ref_sorts|]. split; [exact HSH|]. split; [exact same_row_samples|]. split; [exact all_treated_draws|]. split; [exact HCH|].
  split; [exact HD|]. split; [exact CR|]. split; [exact POS|]. split; [exact H|].
  destruct (estimated_data cauchy argsort_ref unit (fun g n => (seq 0 n, g)) same_row s sale_frame tt s1 x1 argsort_ref_sorts HSH HD CR HN HC H)
    as (_ & S1 & S2 & S3 & S4 & S5 & (e & EM) & starts & EV & EV1 & NE & HW).
  assert (PL : forall n, unflat_name (flat_name (n, "test")) = [n; "test"] -> plain_name n) by (intros n E; apply (c69_name_round_trip n "test"); [simpl; auto|exact E]).
  destruct (regular_simulation cauchy argsort_ref argsort_ref_sorts (par (sm_design s)) (sm_design s) HD CR HN (fun (g : unit) n => (seq 0 n, g)) same_row all_treated
     (fun g l => (hd 0%Z l, g)) HSH same_row_samples all_treated_draws s1 sale_frame tt e starts) as (g1 & r & g2 & k & E & K & A & _); rewrite ?S2, ?S3, ?S4, ?S5; auto.
  - rewrite D1. now apply PL.
  - rewrite D2. now apply PL.
  - rewrite D4. now apply PL.
  - rewrite D1, D4. discriminate.
  - rewrite D2, D4. discriminate.
  - intros w lab Iw HL. destruct (HW w lab Iw HL) as (X & Y & Z). repeat (split; auto). rewrite D1. intros N. destruct (N eq_refl).
  - unfold run_validate_design. rewrite EM. cbn [seq smap]. unfold sbind. rewrite E, (proj2 A); [reflexivity|]. right. intros I. apply repeat_spec in I. discriminate.
Qed.

(** two arms that alternate are never empty: the same design can be validated with any number of simulations *)
Example c89_example_validation : forall n, exists s s1 x1 s2 x2,
  mk_sim sale_design sale_frame "item" "week" 0 "period" "arm" (1 / 20) = Ok s /\
  estimate_minimum_detectable_effect cauchy argsort_ref (fun (g : unit) n => (seq 0 n, g)) same_row s (sale_frame, tt) = ((s1, x1), Ok tt) /\
  run_validate_design cauchy argsort_ref (fun (g : unit) n => (seq 0 n, g)) same_row alternate (fun g l => (hd 0%Z l, g)) s1 n (sale_frame, tt) = ((s2, x2), Ok tt).
Proof.
  intros n. destruct sale_estimate as (s & s1 & x1 & ES & D1 & D2 & D3 & D4 & H). destruct sale_rows as [PR _].
  assert (PL : forall n, unflat_name (flat_name (n, "test")) = [n; "test"] -> plain_name n) by (intros m E; apply (c69_name_round_trip m "test"); [simpl; auto|exact E]).
  destruct (c89_positive_metrics_can_be_validated cauchy argsort_ref unit (fun g n => (seq 0 n, g)) same_row alternate (fun g l => (hd 0%Z l, g)) s sale_frame tt s1 x1
    argsort_ref_sorts) with (n := n) (g' := tt) as (s2 & x2 & V); rewrite ?D1, ?D2, ?D3, ?D4; auto.
  - intros g k. apply Permutation_refl.
  - exact same_row_samples.
  - exact alternate_draws.
  - intros g [|w l] NE; [congruence|now left].
  - reflexivity.
  - now apply (PL "arm").
  - discriminate.
  - discriminate.
  - intros g k K. cbn. intros [X|X]; apply X; apply in_map_iff; [exists 1%nat|exists 0%nat]; (split; [reflexivity|apply in_seq; lia]).
  - exists s, s1, x1, s2, x2. auto.
Qed.

Print Assumptions c89_what_stops_a_regular_validation.
Print Assumptions c89_positive_metrics_can_be_validated.
Print Assumptions c89_estimated_regular_designs_can_be_validated_refuted.
