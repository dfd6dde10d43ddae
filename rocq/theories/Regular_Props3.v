(** C97: when the analysis of a regular experiment gives results for all metrics, and that of the notebook. *)
From Coq Require Import ZArith Reals Lra Lia List String Ascii Bool Permutation Sorting.Sorted.
From Flocq Require Import Core BinarySingleNaN.
Require Verif.Bars_Model Verif.Bars_Props Verif.Overtime_Model Verif.Overtime_Props Verif.Cupedplot_Model Verif.Cupedplot_Props.
Require Import Verif.Base Verif.Num Verif.NumOrd Verif.F64 Verif.Frame Verif.ListLib Verif.Design_Model Verif.Design_Spec Verif.Design_Proofs
  Verif.Design_Yaml_Proofs Verif.Design_Props Verif.Trimmed_Model Verif.Trimmed_Spec Verif.Moments Verif.Trimmed_Proofs Verif.Trimmed_Real Verif.Trimmed_Props
  Verif.Cuped_Model Verif.Cuped_Props Verif.Stats_Model Verif.Stats_Num Verif.Stats_Props Verif.Tests_Proofs
  Verif.Tests_Props Verif.Tests_Props2 Verif.Periods_Model Verif.Periods_Proofs Verif.Periods_Props
  Verif.Rows_Model Verif.Rows_Spec Verif.Rows_Proofs Verif.Rows_Props
  Verif.Checks_Model Verif.Checks_Spec Verif.Checks_Proofs Verif.Checks_Props
  Verif.Pivot_Model Verif.Pivot_Spec Verif.Pivot_Proofs Verif.Pivot_Props
  Verif.Analysis_Spec Verif.Analysis_Model Verif.Analysis_Props Verif.Effect_Props Verif.Analysis_Props2
  Verif.Pipeline_Model Verif.Pipeline_Spec Verif.Pipeline_Proofs Verif.Experiment_Props Verif.Assign_Props Verif.Journey_Model Verif.Journey_Proofs
  Verif.Journey_Props Verif.Standard_Model Verif.Standard_Props Verif.Entry_Model Verif.Entry_Proofs Verif.Analyzer_Model Verif.Analyzer_Props Verif.Analyzer_Props2 Verif.Analyzer_Props3 Verif.Totals_Props
  Verif.Simulation_Model Verif.Sim_Names_Props Verif.Sim_Boot_Props Verif.Sim_State_Props Verif.Sim_Stats_Props Verif.Sim_Estimate_Props Verif.Sim_Effect_Props
  Verif.Regular_Props.
Import ListNotations.
Open Scope string_scope.
Open Scope list_scope.
Open Scope Z_scope.


(** *** The test of two ratios *)
Lemma trimmed_empty_pair argsort q : is_finite q = true -> (0 <= B2R q < 1 / 2)%R -> mk_trimmed argsort [[]; []] q = Err empty_arm.
Proof.
  intros F Q. unfold mk_trimmed. rewrite (quantile_checks_ok q F Q). cbn [raise_if bind]. change (Z.of_nat (Trimmed_Model.sample_size [[]; []])) with 0%Z.
  destruct (floor_mul_bounds q 0 F) as (kz & E & _ & Hk); [lra|lia|].
  assert (K : kz = 0%Z) by (apply floor_mul_count in E; rewrite E; apply trim_none).
  rewrite E, K. reflexivity.
Qed.

Lemma stack_pair (a b : list num) : List.length b = List.length a -> np_stack [a; b] = Ok [a; b].
Proof. intros L. unfold np_stack. cbn [forallb hd]. now rewrite L, Nat.eqb_refl. Qed.

(** with items in both arms there is a result, whatever the numbers *)
Lemma ind_ratio_runs T argsort a b da db q alpha : sorts argsort -> usable (List.length a) q -> usable (List.length b) q ->
  List.length da = List.length a -> List.length db = List.length b ->
  exists r, yuens_t_test_ind T argsort a b q (Some da) (Some db) false "two-sided" alpha = Ok r.
Proof.
  intros HS U1 U2 L1 L2. unfold yuens_t_test_ind. cbn [ratio_arguments bind]. rewrite (stack_pair a da L1), (stack_pair b db L2). cbn [bind].
  destruct (mk_trimmed_usable argsort [a; da] q (List.length a) HS U1) as (t1 & -> & _); [discriminate|intros r [<-|[<-|[]]]; auto|].
  destruct (mk_trimmed_usable argsort [b; db] q (List.length b) HS U2) as (t2 & -> & _); [discriminate|intros r [<-|[<-|[]]]; auto|].
  cbn [bind]. unfold finish_ind. destruct (two_sample_standard_errors _ _ _ _ _) as [[se e1] e2].
  apply finish_test_total; [now left|]. intros. eexists. reflexivity.
Qed.
Lemma ind_ratio_empty T argsort a b da db q alpha : sorts argsort -> is_finite q = true -> (0 <= B2R q < 1 / 2)%R ->
  List.length da = List.length a -> List.length db = List.length b ->
  (a = [] \/ usable (List.length a) q) -> a = [] \/ b = [] ->
  yuens_t_test_ind T argsort a b q (Some da) (Some db) false "two-sided" alpha = Err empty_arm.
Proof.
  intros HS F Q L1 L2 H1 E. unfold yuens_t_test_ind. cbn [ratio_arguments bind]. rewrite (stack_pair a da L1), (stack_pair b db L2). cbn [bind].
  destruct H1 as [-> | U1].
  - destruct da; [|discriminate]. now rewrite (trimmed_empty_pair argsort q F Q).
  - destruct (mk_trimmed_usable argsort [a; da] q (List.length a) HS U1) as (t1 & E1 & _); [discriminate|intros r [<-|[<-|[]]]; auto|].
    rewrite E1. cbn [bind]. destruct E as [-> | ->]; [destruct U1 as [X _]; inversion X|]. destruct db; [|discriminate].
    now rewrite (trimmed_empty_pair argsort q F Q).
Qed.

(** *** One metric *)
(** some item is listed with the arm *)
Definition listed (keys : list akey) (a : Z) : Prop := exists k, In k keys /\ recorded_arm k = Some a.
Definition of_arm (keys : list akey) (a : Z) (v : list num) : list num := select (map (arm_is a) (map recorded_arm keys)) v.

Lemma of_arm_nonempty keys a v : List.length v = List.length keys -> (of_arm keys a v <> [] <-> listed keys a).
Proof.
  unfold of_arm, listed. revert v. induction keys as [|r rows IH]; intros [|x v] L; try discriminate.
  - split; [intros X; now destruct X|intros (r & [] & _)].
  - cbn [List.length] in L. specialize (IH v ltac:(lia)). unfold select in *. cbn [map combine filter fst].
    destruct (arm_is a (recorded_arm r)) eqn:E; cbn [map].
    + split; [|discriminate]. intros _. exists r. split; [now left|]. unfold arm_is in E. destruct (recorded_arm r); [|discriminate]. apply Z.eqb_eq in E. now subst.
    + rewrite IH. split; intros (r0 & I & H); exists r0; (split; [|exact H]); [now right|].
      destruct I as [<-|I]; auto. rewrite H in E. cbn in E. now rewrite Z.eqb_refl in E.
Qed.
Lemma of_arm_length keys a v w : List.length v = List.length keys -> List.length w = List.length keys -> List.length (of_arm keys a v) = List.length (of_arm keys a w).
Proof.
  unfold of_arm, select. rewrite !map_length. revert v w. induction keys as [|k keys IH]; intros [|x v] [|y w] L M; try discriminate; auto.
  cbn in L, M. cbn [map combine filter fst]. specialize (IH v w ltac:(lia) ltac:(lia)). destruct (arm_is a (recorded_arm k)); cbn; lia.
Qed.
Lemma of_arm_usable keys a v q : usable (List.length keys) q -> List.length v = List.length keys -> of_arm keys a v <> [] ->
  usable (List.length (of_arm keys a v)) q.
Proof.
  intros (_ & B & Q) L N. assert (X := select_length (map (arm_is a) (map recorded_arm keys)) v). fold (of_arm keys a v) in X.
  split; [destruct (of_arm keys a v); [congruence|cbn; lia]|]. split; [lia|exact Q].
Qed.

Definition quantile_of (p : params) (m : metric_spec) : f64 := match ms_override m with Some q => q | None => post p end.

(** the values that are compared, raw or adjusted, exist *)
Lemma compared_values argsort p keys (V : string -> string -> akey -> num) q c : sorts argsort -> usable (List.length keys) q ->
  exists y, (if (0 <? pretest p) then apply_cuped_adjustment argsort (map (V c "test") keys) (map (V c "pretest") keys) q else Ok (map (V c "test") keys)) = Ok y /\
    List.length y = List.length keys.
Proof.
  intros HS U. destruct (0 <? pretest p); [apply cuped_total; auto; apply map_length|]. eexists. split; [reflexivity|apply map_length].
Qed.

Lemma regular_metric T argsort p keys V m : sorts argsort -> crossover p = false -> usable (List.length keys) (quantile_of p m) ->
  (listed keys 1 -> listed keys 0 -> tested T argsort p keys V m = Err zero_control /\ ms_denominator m = None \/ exists r, tested T argsort p keys V m = Ok r) /\
  (~ listed keys 1 \/ ~ listed keys 0 -> tested T argsort p keys V m = Err empty_arm).
Proof.
  intros HS C U. assert (Q := U). destruct Q as (_ & _ & F & Q). unfold tested. rewrite C. fold (quantile_of p m). set (q := quantile_of p m) in *. cbv zeta.
  destruct (compared_values argsort p keys V q (ms_column m) HS U) as (y & -> & LY). cbn [bind].
  assert (N1 := of_arm_nonempty keys 1 y LY). assert (N0 := of_arm_nonempty keys 0 y LY).
  assert (EU : forall a, of_arm keys a y = [] \/ usable (List.length (of_arm keys a y)) q).
  { intros a. destruct (of_arm keys a y) eqn:E; [now left|right]. rewrite <- E. apply of_arm_usable; auto. rewrite E. discriminate. }
  assert (EE : ~ listed keys 1 \/ ~ listed keys 0 -> of_arm keys 1 y = [] \/ of_arm keys 0 y = []).
  { intros [X|X]; [left; destruct (of_arm keys 1 y) eqn:E|right; destruct (of_arm keys 0 y) eqn:E]; auto; exfalso; apply X; [apply N1|apply N0]; discriminate. }
  change (select (map (arm_is 1) (map recorded_arm keys)) y) with (of_arm keys 1 y). change (select (map (arm_is 0) (map recorded_arm keys)) y) with (of_arm keys 0 y).
  destruct (ms_denominator m) as [c|].
  - destruct (compared_values argsort p keys V q c HS U) as (d & -> & LD). cbn [bind].
    change (select (map (arm_is 1) (map recorded_arm keys)) d) with (of_arm keys 1 d). change (select (map (arm_is 0) (map recorded_arm keys)) d) with (of_arm keys 0 d).
    split.
    + intros H1 H0. right. apply N1 in H1. apply N0 in H0. apply ind_ratio_runs; auto; try (apply of_arm_usable; auto; fail); apply of_arm_length; auto.
    + intros X. apply ind_ratio_empty; auto; try (apply of_arm_length; auto).
  - rewrite <- default_alpha_value. split.
    + intros H1 H0. apply N1 in H1. apply N0 in H0.
      destruct (ind_cases T argsort (of_arm keys 1 y) (of_arm keys 0 y) q HS) as (t1 & t2 & _ & _ & A & B); try (apply of_arm_usable; auto; fail).
      destruct (andb _ _); [left; split; auto|right; now apply B].
    + intros X. apply ind_empty; auto.
Qed.

(** *** The whole analysis *)
Lemma mapM_outcome {A} (f : A -> result tresult) (name : A -> string) l : 
  ((forall m, In m l -> exists r, f m = Ok r) -> exists res, mapM (fun m => let! r := f m in Ok (name m, r)) l = Ok res /\ map fst res = map name l) /\
  (forall e, (forall m, In m l -> f m = Err e \/ exists r, f m = Ok r) -> (exists m, In m l /\ f m = Err e) ->
     mapM (fun m => let! r := f m in Ok (name m, r)) l = Err e).
Proof.
  induction l as [|x l [IH1 IH2]]; (split; [intros H|intros e H (m & I & E)]).
  - exists []. auto.
  - destruct I.
  - destruct (H x (or_introl eq_refl)) as (r & R). destruct IH1 as (res & E & N); [intros; apply H; now right|].
    exists ((name x, r) :: res). cbn [mapM]. rewrite R. cbn [bind]. rewrite E. split; [reflexivity|]. cbn. now rewrite N.
  - cbn [mapM]. destruct (H x (or_introl eq_refl)) as [R|(r & R)]; rewrite R; [reflexivity|]. cbn [bind].
    rewrite (IH2 e); [reflexivity|intros; apply H; now right|]. destruct I as [->|I]; [congruence|eauto].
Qed.
Lemma some_or_all {A} (P Q : A -> Prop) l : (forall x, In x l -> P x \/ Q x) -> (exists x, In x l /\ P x) \/ forall x, In x l -> Q x.
Proof.
  induction l as [|x l IH]; intros H; [right; intros y []|]. destruct (H x (or_introl eq_refl)) as [A0|B0]; [left; exists x; split; [now left|exact A0]|].
  destruct IH as [(y & I & Y)|R]; [intros; apply H; now right|left; exists y; split; [now right|exact Y]|]. right. intros y [<-|I]; auto.
Qed.

(** the arm has an item *)
Definition arm_used (assigned : list (string * Z)) (a : Z) : Prop := exists i, In (i, a) assigned.
(** the items of an arm *)
Definition items_in_arm (assigned : list (string * Z)) (a : Z) : list string := map fst (filter (fun ia => snd ia =? a) assigned).

Lemma arm_used_dec assigned a : arm_used assigned a \/ ~ arm_used assigned a.
Proof.
  unfold arm_used. induction assigned as [|[i b] l [(j & I)|N]]; [right; intros (i & []) |left; exists j; now right|].
  destruct (Z.eq_dec b a) as [->|B]; [left; exists i; now left|]. right. intros (j & [X|X]); [congruence|eauto].
Qed.
Lemma listed_used keys assigned a : Permutation keys (map (fun ia : string * Z => (fst ia, [snd ia])) assigned) -> listed keys a <-> arm_used assigned a.
Proof.
  intros P. split.
  - intros (k & I & E). apply (Permutation_in k P) in I. apply in_map_iff in I as ([i b] & <- & I). cbn in E. inversion E; subst. now exists i.
  - intros (i & I). exists (i, [a]). split; [|reflexivity]. apply (Permutation_in _ (Permutation_sym P)). apply in_map_iff. now exists (i, a).
Qed.

Section whole.
Variables (T : tdist) (argsort : list num -> list nat) (as_list : list string -> list string).
Variables (perf : list obs) (assigned : list (string * Z)) (d : design) (metrics : list string) (alo : list (string * string)).
Variables (start : Z) (skip : list string) (out : list erow) (wanted : list metric_spec).
Hypothesis CO : concluded perf assigned d metrics alo start skip out.
Hypothesis HL : lists_a_set as_list.
Hypothesis SO : sorts argsort.
Hypothesis NW : wanted <> [].
Hypothesis HW : forall c, In c (metric_columns_of wanted) -> In c (metrics ++ map snd alo).
Hypothesis OV : forall m q, In m wanted -> ms_override m = Some q -> is_finite q = true /\ (0 <= B2R q < 1 / 2)%R.
Hypothesis C : crossover (par d) = false.
Hypothesis NB : Z.of_nat (List.length assigned) <= 2 ^ 53.

Lemma quantile_usable n m : (0 < n)%nat -> Z.of_nat n <= 2 ^ 53 -> In m wanted -> usable n (quantile_of (par d) m).
Proof.
  intros P B Hm. unfold quantile_of. destruct (ms_override m) as [q|] eqn:EO.
  - destruct (OV m q Hm EO) as [F1 F2]. split; auto.
  - apply (usable_design_post _ d); auto. exact (cd_design _ _ _ _ _ _ _ _ CO).
Qed.

Lemma assigned_nonempty : assigned <> [].
Proof. destruct CO as [_ _ _ _ _ _ (by_date & binom & outer & neg & H7 & H8)]. apply prepare_experiment_ok in H8 as (NA & _); auto. Qed.
Lemma keys_size keys : Permutation keys (map (fun ia : string * Z => (fst ia, [snd ia])) assigned) -> (0 < List.length keys)%nat /\ Z.of_nat (List.length keys) <= 2 ^ 53.
Proof.
  intros P. rewrite (Permutation_length P), map_length. split; [|exact NB]. assert (X := assigned_nonempty). destruct assigned; [congruence|cbn; lia].
Qed.

Lemma stops : let outcome := results T argsort as_list out wanted (par d) in
  (arm_used assigned 1 -> arm_used assigned 0 ->
     (outcome = Err zero_control /\ exists m, In m wanted /\ ms_denominator m = None) \/
     exists res, outcome = Ok res /\ map fst res = map ms_name wanted) /\
  (~ arm_used assigned 1 \/ ~ arm_used assigned 0 -> outcome = Err empty_arm).
Proof.
  intros outcome. destruct (results_from_totals T argsort as_list wanted _ _ _ _ _ _ _ _ CO HL NW HW) as (keys & V & _ & PK & _ & E).
  unfold outcome. rewrite E. clear outcome E. destruct (keys_size keys PK) as [P0 PB].
  assert (R := fun m Hm => regular_metric T argsort (par d) keys V m SO C (quantile_usable _ m P0 PB Hm)).
  rewrite <- !(listed_used keys assigned _ PK). destruct (mapM_outcome (tested T argsort (par d) keys V) ms_name wanted) as [M1 M2]. split.
  - intros H1 H0.
    destruct (some_or_all (fun m => tested T argsort (par d) keys V m = Err zero_control /\ ms_denominator m = None)
      (fun m => exists r, tested T argsort (par d) keys V m = Ok r) wanted) as [(m & I & X & Y)|A].
    + intros m Hm. exact (proj1 (R m Hm) H1 H0).
    + left. split; [|eauto]. apply M2; [|eauto]. intros m' Hm'. destruct (proj1 (R m' Hm') H1 H0) as [[Z _]|Z]; auto.
    + right. exact (M1 A).
  - intros N. apply M2.
    + intros m Hm. left. exact (proj2 (R m Hm) N).
    + destruct wanted as [|m ms]; [congruence|]. exists m. split; [now left|]. apply R; auto. now left.
Qed.

(** the weekly averages of a regular experiment without pretest weeks *)
Variable f : string -> string -> R.
Hypothesis PT : pretest (par d) = 0.
Hypothesis AV : forall c i a, In c (metric_columns_of wanted) -> In (i, a) assigned ->
  ndiv (raw_total perf (raw_value metrics alo c) i start (start + runtime (par d) * week_ns)) (Fin (IZR (runtime (par d)))) = Fin (f c i).

Lemma of_arm_values keys (V : akey -> num) (g : string -> R) a :
  Permutation keys (map (fun ia : string * Z => (fst ia, [snd ia])) assigned) ->
  (forall i b, In (i, b) assigned -> V (i, [b]) = Fin (g i)) ->
  exists xs, of_arm keys a (map V keys) = data xs /\ Permutation xs (map g (items_in_arm assigned a)).
Proof.
  intros P H. exists (map g (map fst (filter (fun k => arm_is a (recorded_arm k)) keys))). split.
  - assert (HK : forall k, In k keys -> V k = Fin (g (fst k))).
    { intros k Hk. apply (Permutation_in k P) in Hk. apply in_map_iff in Hk as ([i b] & <- & I). now apply H. }
    clear P H. unfold of_arm, select, data. induction keys as [|k keys IH]; [reflexivity|]. cbn [map combine filter fst].
    assert (IH' := IH (fun k' Hk => HK k' (or_intror Hk))). destruct (arm_is a (recorded_arm k)); cbn [map snd]; [rewrite (HK k (or_introl eq_refl)); f_equal|]; exact IH'.
  - apply Permutation_map. unfold items_in_arm.
    assert (Q : Permutation (filter (fun k => arm_is a (recorded_arm k)) keys)
      (filter (fun k => arm_is a (recorded_arm k)) (map (fun ia : string * Z => (fst ia, [snd ia])) assigned))).
    { clear - P. induction P; cbn [filter]; repeat (match goal with |- context [if ?b then _ else _] => destruct b end); auto using perm_swap. eapply perm_trans; eauto. }
    apply (Permutation_map fst) in Q. eapply perm_trans; [exact Q|]. clear.
    induction assigned as [|[i b] l IH]; [constructor|]. cbn [map filter fst snd]. unfold recorded_arm at 1. cbn [snd arm_is].
    replace (Z.eqb a b) with (Z.eqb b a) by apply Z.eqb_sym. destruct (b =? a); cbn [map fst]; auto.
Qed.

Lemma comparable_perm q xs xs' ys ys' : Permutation xs xs' -> Permutation ys ys' -> comparable q xs ys -> comparable q xs' ys'.
Proof.
  intros P Q (A & B & H). split; [intros ->; apply Permutation_sym, Permutation_nil in P; congruence|].
  split; [intros ->; apply Permutation_sym, Permutation_nil in Q; congruence|]. intros st sc [P1 S1] [Q1 S2].
  rewrite <- (Permutation_length P), <- (Permutation_length Q). apply H; split; auto; eapply perm_trans; eauto.
Qed.

Lemma come_iff : is_ok (results T argsort as_list out wanted (par d)) <->
  arm_used assigned 1 /\ arm_used assigned 0 /\
  forall m, In m wanted -> ms_denominator m = None ->
    comparable (quantile_of (par d) m) (map (f (ms_column m)) (items_in_arm assigned 1)) (map (f (ms_column m)) (items_in_arm assigned 0)).
Proof.
  assert (ST := stops). cbv zeta in ST.
  destruct (results_from_totals T argsort as_list wanted _ _ _ _ _ _ _ _ CO HL NW HW) as (keys & V & _ & PK & EV & E).
  rewrite E in *. destruct (keys_size keys PK) as [P0 PB].
  destruct (mapM_outcome (tested T argsort (par d) keys V) ms_name wanted) as [M1 M2].
  assert (R := fun m Hm => regular_metric T argsort (par d) keys V m SO C (quantile_usable _ m P0 PB Hm)).
  assert (ONE : forall m, In m wanted -> ms_denominator m = None ->
    ((exists r, tested T argsort (par d) keys V m = Ok r) <->
     comparable (quantile_of (par d) m) (map (f (ms_column m)) (items_in_arm assigned 1)) (map (f (ms_column m)) (items_in_arm assigned 0)))).
  { intros m Hm ND. assert (U := quantile_usable _ m P0 PB Hm). destruct U as (_ & _ & F & Q).
    unfold tested. rewrite C, ND, PT. cbn [Z.ltb Z.compare bind]. fold (quantile_of (par d) m).
    assert (VV : forall i b, In (i, b) assigned -> V (ms_column m) "test" (i, [b]) = Fin (f (ms_column m) i)).
    { intros i b I. assert (IC := wanted_column wanted m _ Hm (or_introl eq_refl)). rewrite <- (AV _ i b IC I).
      rewrite (EV (ms_column m) "test" 0 (runtime (par d)) i b); auto.
      - now rewrite Z.mul_0_l, Z.add_0_r.
      - unfold needed. rewrite C. now left.
      - unfold period_span. rewrite C. now left. }
    destruct (of_arm_values keys (V (ms_column m) "test") (f (ms_column m)) 1 PK VV) as (xs & EX & PX).
    destruct (of_arm_values keys (V (ms_column m) "test") (f (ms_column m)) 0 PK VV) as (ys & EY & PY).
    unfold of_arm in EX, EY. rewrite EX, EY, <- default_alpha_value.
    assert (LE : forall a, Z.of_nat (List.length (items_in_arm assigned a)) <= 2 ^ 53).
    { intros a. unfold items_in_arm. rewrite map_length. assert (X := Rank.filter_length_le (fun ia : string * Z => snd ia =? a) assigned). lia. }
    destruct (ind_succeeds_iff T argsort xs ys (quantile_of (par d) m) SO F Q) as [W _].
    { rewrite (Permutation_length PX), map_length. apply LE. }
    { rewrite (Permutation_length PY), map_length. apply LE. }
    unfold is_ok in W. rewrite W. split; apply comparable_perm; auto using Permutation_sym. }
  split.
  - intros (res & OK). 
    assert (US : arm_used assigned 1 /\ arm_used assigned 0).
    { destruct ST as [_ ST]. destruct (arm_used_dec assigned 1), (arm_used_dec assigned 0); auto; rewrite ST in OK; try discriminate; auto. }
    destruct US as [U1 U0]. split; auto. split; auto. intros m Hm ND. apply (ONE m Hm ND).
    destruct (proj1 (R m Hm)) as [[X _]|X]; [apply (listed_used keys assigned _ PK); auto..| |exact X]. exfalso.
    rewrite (M2 zero_control) in OK; [discriminate| |eauto]. intros m' Hm'.
    destruct (proj1 (R m' Hm')) as [[Y _]|Y]; [apply (listed_used keys assigned _ PK); auto..|now left|now right].
  - intros (U1 & U0 & H). destruct M1 as (res & X & _); [|exists res; exact X]. intros m Hm.
    destruct (proj1 (R m Hm)) as [[X ND]|X]; [apply (listed_used keys assigned _ PK); auto..| |exact X]. now apply ONE, H.
Qed.
End whole.

Theorem c97_what_stops_a_regular_experiment :
  forall T argsort as_list perf assigned d metrics alo start skip out wanted,
    concluded perf assigned d metrics alo start skip out -> lists_a_set as_list -> sorts argsort -> wanted <> [] ->
    (forall c, In c (metric_columns_of wanted) -> In c (metrics ++ map snd alo)) ->
    (forall m q, In m wanted -> ms_override m = Some q -> is_finite q = true /\ (0 <= B2R q < 1 / 2)%R) ->
    crossover (par d) = false -> Z.of_nat (List.length assigned) <= 2 ^ 53 ->
    let outcome := results T argsort as_list out wanted (par d) in
    (arm_used assigned 1 -> arm_used assigned 0 ->
       (outcome = Err zero_control /\ exists m, In m wanted /\ ms_denominator m = None) \/
       exists res, outcome = Ok res /\ map fst res = map ms_name wanted) /\
    (~ arm_used assigned 1 \/ ~ arm_used assigned 0 -> outcome = Err empty_arm).
Proof. intros. now apply (stops T argsort as_list perf assigned d metrics alo start skip out wanted). Qed.

(** the weekly averages of the runtime decide, those of the metrics with a denominator never do *)
Theorem c97_without_pretest_results_come_iff :
  forall T argsort as_list perf assigned d metrics alo start skip out wanted f,
    concluded perf assigned d metrics alo start skip out -> lists_a_set as_list -> sorts argsort -> wanted <> [] ->
    (forall c, In c (metric_columns_of wanted) -> In c (metrics ++ map snd alo)) ->
    (forall m q, In m wanted -> ms_override m = Some q -> is_finite q = true /\ (0 <= B2R q < 1 / 2)%R) ->
    crossover (par d) = false -> Z.of_nat (List.length assigned) <= 2 ^ 53 -> pretest (par d) = 0 ->
    (forall c i a, In c (metric_columns_of wanted) -> In (i, a) assigned ->
       ndiv (raw_total perf (raw_value metrics alo c) i start (start + runtime (par d) * week_ns)) (Fin (IZR (runtime (par d)))) = Fin (f c i)) ->
    (is_ok (results T argsort as_list out wanted (par d)) <->
     arm_used assigned 1 /\ arm_used assigned 0 /\
     forall m, In m wanted -> ms_denominator m = None ->
       comparable (quantile_of (par d) m) (map (f (ms_column m)) (items_in_arm assigned 1)) (map (f (ms_column m)) (items_in_arm assigned 0))).
Proof. intros. now apply (come_iff T argsort as_list perf assigned d metrics alo start skip out wanted). Qed.

(** *** The notebook *)
Definition five : list string := ["clicks"; "impressions"; "total_cost"; "conversions"; "total_conversion_value"].
Definition three : list string := ["at_least_one_impression"; "at_least_one_click"; "at_least_one_conversion"].

Lemma total_nonneg l : (forall x, In x l -> 0 <= x)%R -> (0 <= Trimmed_Spec.total l)%R.
Proof.
  induction l as [|x l IH]; intros H; [apply Rle_refl|]. assert (0 <= x)%R by (apply H; now left).
  assert (0 <= Trimmed_Spec.total l)%R by (apply IH; intros; apply H; now right).
  change (Trimmed_Spec.total (x :: l)) with (x + Trimmed_Spec.total l)%R. lra.
Qed.
Lemma total_zero_iff l : (forall x, In x l -> 0 <= x)%R -> (Trimmed_Spec.total l = 0 <-> forall x, In x l -> x = 0)%R.
Proof.
  induction l as [|x l IH]; intros H; [split; [intros _ x []|reflexivity]|].
  assert (X : (0 <= x)%R) by (apply H; now left). assert (P : (0 <= Trimmed_Spec.total l)%R) by (apply total_nonneg; intros; apply H; now right).
  change (Trimmed_Spec.total (x :: l)) with (x + Trimmed_Spec.total l)%R. specialize (IH (fun z Hz => H z (or_intror Hz))). split.
  - intros E y [<-|I]; [lra|]. apply IH; auto. lra.
  - intros E. assert (Y : Trimmed_Spec.total l = 0%R) by (apply IH; intros; apply E; now right). rewrite Y, (E x (or_introl eq_refl)). lra.
Qed.
Lemma avg_nonneg l : (forall x, In x l -> 0 <= x)%R -> (0 <= avg l)%R.
Proof.
  intros H. unfold avg. destruct l as [|x l]; [cbn; unfold Rdiv; rewrite Rmult_0_l; lra|].
  apply Rmult_le_pos; [now apply total_nonneg|]. left. apply Rinv_0_lt_compat, lt_0_INR. cbn. lia.
Qed.
Lemma in_middle {A} k (s : list A) x : In x (middle k s) -> In x s.
Proof.
  unfold middle. intros I. rewrite <- (firstn_skipn k s). apply in_or_app. right.
  rewrite <- (firstn_skipn (List.length s - 2 * k) (skipn k s)). apply in_or_app. now left.
Qed.
Lemma comparable_nonneg q xs ys : (forall x, In x xs -> 0 <= x)%R ->
  (comparable q xs ys <-> xs <> [] /\ ys <> [] /\ forall sc, sorted_as ys sc -> tmean (Z.to_nat (trim_each (List.length ys) q)) sc <> 0%R).
Proof.
  intros H. unfold comparable. split; intros (A & B & X); (split; [exact A|split; [exact B|]]).
  - intros sc Sc E. destruct (sorted_exists xs) as (st & St). specialize (X st sc St Sc E). apply Rlt_not_le in X. apply X, avg_nonneg.
    intros x I. apply H. destruct St as [P _]. apply (Permutation_in x (Permutation_sym P)). now apply in_middle in I.
  - intros st sc St Sc E. now destruct (X sc Sc).
Qed.
Lemma comparable_untrimmed xs ys : (forall x, In x xs -> 0 <= x)%R -> (forall y, In y ys -> 0 <= y)%R -> xs <> [] ->
  (comparable f0 xs ys <-> exists y, In y ys /\ (0 < y)%R).
Proof.
  intros HX HY NX. rewrite comparable_nonneg by auto.
  assert (T0 : forall n, Z.to_nat (trim_each n f0) = 0%nat).
  { intros n. unfold trim_each. replace (B2R f0 * INR n)%R with 0%R by (replace (B2R f0) with 0%R by reflexivity; ring).
    unfold rnd. rewrite round_0 by apply valid_rnd_N. now rewrite (Zfloor_IZR 0). }
  rewrite T0. split.
  - intros (_ & NY & H). destruct (sorted_exists ys) as (sc & Sc). specialize (H sc Sc). rewrite (tmean_0 _ _ Sc) in H.
    destruct (Exists_dec (fun y => 0 < y)%R ys (fun y => Rlt_dec 0 y)) as [E|N]; [apply Exists_exists in E; exact E|].
    exfalso. apply H. unfold avg. replace (Trimmed_Spec.total ys) with 0%R; [unfold Rdiv; now rewrite Rmult_0_l|]. symmetry.
    apply total_zero_iff; auto. intros y I. specialize (HY y I). destruct (Rle_lt_or_eq_dec 0 y HY) as [L|L]; auto. exfalso. apply N, Exists_exists. eauto.
  - intros (y & I & P). split; auto. split; [intros ->; destruct I|]. intros sc Sc. rewrite (tmean_0 _ _ Sc). unfold avg. intros E.
    assert (L : (0 < INR (List.length ys))%R) by (apply lt_0_INR; destruct ys; [destruct I|cbn; lia]).
    assert (Z : Trimmed_Spec.total ys = 0%R).
    { apply Rmult_eq_reg_r with (/ INR (List.length ys))%R; [|apply Rinv_neq_0_compat; lra]. rewrite Rmult_0_l. exact E. }
    assert (W := proj1 (total_zero_iff ys HY) Z y I). lra.
Qed.

Lemma notebook_columns : forall c, In c (metric_columns_of notebook_metrics) <-> In c (five ++ three).
Proof. intros c. cbn. intuition. Qed.
Lemma in_arm_iff assigned a i : In i (items_in_arm assigned a) <-> In (i, a) assigned.
Proof.
  unfold items_in_arm. rewrite in_map_iff. split.
  - intros ([j b] & <- & I). apply filter_In in I as [I E]. cbn in *. apply Z.eqb_eq in E. now subst.
  - intros I. exists (i, a). split; auto. apply filter_In. split; auto. apply Z.eqb_refl.
Qed.

(** without pretest weeks, and with averages that are not negative, the eleven results of the notebook come exactly when both
    arms have items, the trimmed mean of the control arm is not zero for any of the five metrics and some item of the control
    arm has an impression, a click and a conversion *)
Theorem c97_notebook_of_a_regular_experiment :
  forall T argsort as_list perf assigned d f start skip out weekly,
    concluded perf assigned d (form_columns f) (form_at_least_one f) start skip out -> lists_a_set as_list -> sorts argsort ->
    (forall c, In c five -> In c (form_columns f)) ->
    crossover (par d) = false -> Z.of_nat (List.length assigned) <= 2 ^ 53 -> pretest (par d) = 0 ->
    (forall c i a, In c (five ++ three) -> In (i, a) assigned -> (0 <= weekly c i)%R /\
       ndiv (raw_total perf (raw_value (form_columns f) (form_at_least_one f) c) i start (start + runtime (par d) * week_ns)) (Fin (IZR (runtime (par d)))) =
       Fin (weekly c i)) ->
    ((exists res, notebook_analysis T argsort as_list out d = Ok res /\ map fst res = eleven) <->
     arm_used assigned 1 /\ arm_used assigned 0 /\
     (forall c s, In c five -> sorted_as (map (weekly c) (items_in_arm assigned 0)) s ->
        tmean (Z.to_nat (trim_each (List.length (items_in_arm assigned 0)) (post (par d)))) s <> 0%R) /\
     (forall c, In c three -> exists i, In (i, 0) assigned /\ (0 < weekly c i)%R)).
Proof.
  intros T argsort as_list perf assigned d f start skip out weekly CO HL SO ALL C NB PT AV.
  assert (HW : forall c, In c (metric_columns_of notebook_metrics) -> In c (form_columns f ++ map snd (form_at_least_one f))).
  { intros c Hc. apply in_or_app.
    assert (ALO : forall m n, In (m, n) [("clicks", "at_least_one_click"); ("impressions", "at_least_one_impression"); ("conversions", "at_least_one_conversion")] ->
      In m (form_columns f) -> In n (map snd (form_at_least_one f))).
    { intros m n I J. apply in_map_iff. exists (m, n). split; auto. apply (proj1 (proj2 (proj2 (proj2 (c93_what_the_form_requests f))))). auto. }
    apply notebook_columns, in_app_or in Hc. destruct Hc as [Hc|Hc]; [left; now apply ALL|right]. cbn in Hc. destruct Hc as [<-|[<-|[<-|[]]]].
    - apply (ALO "impressions"); [cbn; tauto|apply ALL; cbn; tauto].
    - apply (ALO "clicks"); [cbn; tauto|apply ALL; cbn; tauto].
    - apply (ALO "conversions"); [cbn; tauto|apply ALL; cbn; tauto]. }
  assert (OV : forall m q, In m notebook_metrics -> ms_override m = Some q -> is_finite q = true /\ (0 <= B2R q < 1 / 2)%R).
  { intros m q Hm EQ. assert (q = f0) as -> by (cbn [In notebook_metrics] in Hm; repeat (destruct Hm as [<-|Hm]; [cbn [ms_override] in EQ; congruence|]); destruct Hm).
    split; [reflexivity|]. replace (B2R f0) with 0%R by reflexivity. lra. }
  assert (NW : notebook_metrics <> []) by discriminate.
  assert (W := c97_without_pretest_results_come_iff T argsort as_list perf assigned d _ _ start skip out notebook_metrics weekly CO HL SO NW HW OV C NB PT
    (fun c i a Hc Hi => proj2 (AV c i a (proj1 (notebook_columns c) Hc) Hi))).
  assert (S := c97_what_stops_a_regular_experiment T argsort as_list perf assigned d _ _ start skip out notebook_metrics CO HL SO NW HW OV C NB). cbv zeta in S.
  assert (NA : (exists res, notebook_analysis T argsort as_list out d = Ok res /\ map fst res = eleven) <-> is_ok (results T argsort as_list out notebook_metrics (par d))).
  { change (notebook_analysis T argsort as_list out d) with (results T argsort as_list out notebook_metrics (par d)). split.
    - intros (res & E & _). now exists res.
    - intros OK. assert (W' := OK). apply W in W' as (U1 & U0 & _). destruct (proj1 S U1 U0) as [[E _]|R]; [|exact R]. destruct OK as (r & OK). rewrite OK in E. discriminate. }
  rewrite NA, W. clear NA W S.
  assert (NN : forall c a x, In c (five ++ three) -> In x (map (weekly c) (items_in_arm assigned a)) -> (0 <= x)%R).
  { intros c a x Hc Hx. apply in_map_iff in Hx as (i & <- & Hi). apply in_arm_iff in Hi. now apply (AV c i a). }
  assert (NE : forall c a, arm_used assigned a -> map (weekly c) (items_in_arm assigned a) <> []).
  { intros c a (i & I). apply in_arm_iff in I. destruct (items_in_arm assigned a); [destruct I|discriminate]. }
  split; intros (U1 & U0 & H); (split; [exact U1|split; [exact U0|]]).
  - split.
    + intros c s Hc. assert (K : exists m, In m notebook_metrics /\ ms_denominator m = None /\ ms_override m = None /\ ms_column m = c).
      { assert (MM : forall n, In (mkMetric n c None None) notebook_metrics -> exists m, In m notebook_metrics /\ ms_denominator m = None /\ ms_override m = None /\ ms_column m = c)
          by (intros n I; exists (mkMetric n c None None); auto).
        cbn in Hc. destruct Hc as [<-|[<-|[<-|[<-|[<-|[]]]]]];
          [apply (MM "Clicks")|apply (MM "Impressions")|apply (MM "Cost")|apply (MM "Conversions")|apply (MM "Conversion value")]; cbn [In notebook_metrics]; tauto. }
      destruct K as (m & Hm & D & O & <-). specialize (H m Hm D). unfold quantile_of in H. rewrite O in H.
      apply comparable_nonneg in H as (_ & _ & H); [|intros x; apply NN; apply in_or_app; now left].
      rewrite map_length in H. apply H.
    + intros c Hc. assert (K : exists m, In m notebook_metrics /\ ms_denominator m = None /\ ms_override m = Some f0 /\ ms_column m = c).
      { assert (MM : forall n, In (mkMetric n c None (Some f0)) notebook_metrics -> exists m, In m notebook_metrics /\ ms_denominator m = None /\ ms_override m = Some f0 /\ ms_column m = c)
          by (intros n I; exists (mkMetric n c None (Some f0)); auto).
        cbn in Hc. destruct Hc as [<-|[<-|[<-|[]]]];
          [apply (MM "At least one impression")|apply (MM "At least one click")|apply (MM "At least one conversion")]; cbn [In notebook_metrics]; tauto. }
      destruct K as (m & Hm & D & O & <-). specialize (H m Hm D). unfold quantile_of in H. rewrite O in H.
      apply comparable_untrimmed in H; [|intros x; apply NN; apply in_or_app; now right|intros x; apply NN; apply in_or_app; now right|now apply NE].
      destruct H as (y & I & P). apply in_map_iff in I as (i & <- & I). exists i. split; [now apply in_arm_iff|exact P].
  - destruct H as [HF HT]. intros m Hm D.
    assert (K : (In (ms_column m) five /\ ms_override m = None) \/ (In (ms_column m) three /\ ms_override m = Some f0)).
    { cbn [In notebook_metrics] in Hm. repeat (destruct Hm as [<-|Hm]; [cbn [ms_denominator ms_column ms_override] in *; try discriminate; cbn; tauto|]). destruct Hm. }
    unfold quantile_of. destruct K as [[I ->]|[I ->]].
    + apply comparable_nonneg; [intros x; apply NN; apply in_or_app; now left|]. split; [now apply NE|]. split; [now apply NE|].
      intros sc Sc. rewrite map_length. now apply (HF (ms_column m)).
    + apply comparable_untrimmed; [intros x; apply NN; apply in_or_app; now right|intros x; apply NN; apply in_or_app; now right|now apply NE|].
      destruct (HT _ I) as (i & J & P). exists (weekly (ms_column m) i). split; auto. apply in_map. now apply in_arm_iff.
Qed.

(** *** Concrete cases *)
(** two weeks without a pretest; the item of the control arm has the given conversions *)
Definition plain_params : params := mkParams 1000 2 "clicks" 0 false f0 f0 f0 None (flit 5 100) (flit 8 10) (Some "s").
Definition plain_design : design := mkDesignRec plain_params 1000 1000.
Definition plain_perf (x : R) : list obs :=
  [mkObs "a" 0 [Fin 1; Fin 1; Fin 1; Fin 1; Fin 1]; mkObs "a" week_ns [Fin 1; Fin 1; Fin 1; Fin 1; Fin 1];
   mkObs "b" 0 [Fin 1; Fin 1; Fin 1; Fin x; Fin x]; mkObs "b" week_ns [Fin 1; Fin 1; Fin 1; Fin x; Fin x]].
Definition zero_or_one (x : R) : Prop := x = 0%R \/ x = 1%R.

Lemma plain_prepared x : zero_or_one x -> exists out,
  prepare_experiment isort_by_date (fun _ _ => Ok (Fin 1)) (fun l => l) (plain_perf x) ex_assigned plain_design
    (form_columns default_form) 0 true (form_columns default_form) (form_at_least_one default_form) ex_skip = Ok out.
Proof.
  intros ZO. set (cols := form_columns default_form).
  set (news := ["at_least_one_click"; "at_least_one_impression"; "at_least_one_conversion"]).
  set (out_of := fun ind : num -> num => flat_map (fun ia =>
     let c := if String.eqb (fst ia) "a" then Fin 1 else Fin x in
     map (fun w => mkE (fst ia) (w * week_ns) (combine cols [Fin 1; Fin 1; Fin 1; c; c] ++ combine news [ind (Fin 1); ind (Fin 1); ind c]) w (w * week_ns) (Some "test") (snd ia))
       [0; 1]) ex_assigned).
  set (out := out_of (fun x => x)).
  assert (EO : out_of indicator = out).
  { unfold out, out_of. apply flat_map_ext. intros ia. cbv zeta. destruct (String.eqb (fst ia) "a"); rewrite ?indicator_of_one; [reflexivity|].
    destruct ZO as [-> | ->]; rewrite ?indicator_of_one, ?indicator_of_zero; reflexivity. }
  exists out.
  assert (V : validate_experiment_data isort_by_date (fun _ _ => Ok (Fin 1)) (experiment_view out) plain_design cols 0 true cols ex_skip = Ok tt).
  { rewrite experiment_run_all.
    replace (assert_all_exist ex_skip) with (Ok [tt]) by (vm_compute; reflexivity). cbn [bind].
    apply run_all_pass.
    repeat (constructor; [cbn [fst snd]|]); [| | | | | | | | | | | |constructor];
      try (left; clear EO; unfold out, out_of; destruct ZO as [-> | ->]; vm_compute; reflexivity).
    - right. split; [eexists; reflexivity|now left].
    - left. unfold check_srm. cbn [bind]. f_equal. apply one_above_threshold. }
  unfold prepare_experiment.
  match goal with |- context [raise_if ?b ?e] => change (raise_if b e) with (@Ok unit tt) end. cbn [bind plain_perf].
  fold (plain_perf x). unfold fill_missing_rows_with_zeros at 1.
  match goal with |- context [raise_if ?b ?e] => change (raise_if b e) with (@Ok unit tt) end. cbn [bind].
  destruct (label_fun (par plain_design) 0) as [lab|] eqn:EL; [|discriminate EL]. injection EL as <-. cbn [bind].
  match goal with |- context [mapM ?f ?l] =>
    assert (M : mapM f l = Ok (map (fun r => (r, combine cols (o_vals (w_obs r)) ++
       combine news (map indicator [nth 0 (o_vals (w_obs r)) NaN; nth 1 (o_vals (w_obs r)) NaN; nth 3 (o_vals (w_obs r)) NaN]))) l)) by reflexivity end.
  rewrite M. clear M. cbn [bind].
  match goal with |- context [flat_map ?f ?l] => assert (FM : flat_map f l = out_of indicator) by reflexivity end.
  rewrite FM, EO, V. reflexivity.
Qed.

Lemma plain_concluded x out :
  prepare_experiment isort_by_date (fun _ _ => Ok (Fin 1)) (fun l => l) (plain_perf x) ex_assigned plain_design
    (form_columns default_form) 0 true (form_columns default_form) (form_at_least_one default_form) ex_skip = Ok out ->
  concluded (plain_perf x) ex_assigned plain_design (form_columns default_form) (form_at_least_one default_form) 0 ex_skip out.
Proof.
  intros H. destruct (form_fresh default_form default_distinct) as (NM & FI & OWN).
  constructor; [apply mk_design_check; vm_compute; reflexivity|exact NM|exact FI|exact OWN| | |].
  - exists 0. intros o Ho. cbn in Ho. repeat (destruct Ho as [<-|Ho]; [split; reflexivity|]). destruct Ho.
  - intros n Hn X. cbn in X. destruct X as [<-|[]]. cbn in Hn. intuition discriminate.
  - exists isort_by_date, (fun _ _ => Ok (Fin 1)), (fun l => l), (form_columns default_form). auto.
Qed.

(** the weekly averages *)
Definition plain_weekly (x : R) (c i : string) : R :=
  if String.eqb i "a" then 1%R
  else if existsb (String.eqb c) ["conversions"; "total_conversion_value"; "at_least_one_conversion"] then x else 1%R.
Lemma plain_averages x : zero_or_one x -> forall c i a, In c (five ++ three) -> In (i, a) ex_assigned ->
  (0 <= plain_weekly x c i)%R /\
  ndiv (raw_total (plain_perf x) (raw_value (form_columns default_form) (form_at_least_one default_form) c) i 0
    (0 + runtime (par plain_design) * week_ns)) (Fin (IZR (runtime (par plain_design)))) = Fin (plain_weekly x c i).
Proof.
  intros ZO c i a Hc Hi.
  assert (OP : one_if_positive (Fin 1) = Fin 1 /\ one_if_positive (Fin x) = Fin x).
  { rewrite <- !indicator_one. split; [apply indicator_of_one|]. destruct ZO as [-> | ->]; [apply indicator_of_zero|apply indicator_of_one]. }
  assert (RV : forall o y, In o (plain_perf x) -> y = (if String.eqb (o_item o) "a" then 1%R else x) ->
    raw_value (form_columns default_form) (form_at_least_one default_form) c o =
    Fin (if existsb (String.eqb c) ["conversions"; "total_conversion_value"; "at_least_one_conversion"] then y else 1%R)).
  { intros o y Ho ->. cbn in Ho. destruct OP as [O1 O2].
    assert (K : forall i z vals, raw_value (form_columns default_form) (form_at_least_one default_form) c (mkObs i z [Fin 1; Fin 1; Fin 1; Fin vals; Fin vals]) =
      if existsb (String.eqb c) ["conversions"; "total_conversion_value"] then Fin vals
      else if String.eqb c "at_least_one_conversion" then one_if_positive (Fin vals)
      else if existsb (String.eqb c) three then one_if_positive (Fin 1) else Fin 1).
    { intros i0 z vals. clear - Hc. cbn [In five three app] in Hc.
      destruct Hc as [<-|[<-|[<-|[<-|[<-|[<-|[<-|[<-|[]]]]]]]]]; reflexivity. }
    rewrite O1 in K. clear - Ho Hc K O1 O2.
    destruct Ho as [<-|[<-|[<-|[<-|[]]]]]; rewrite K, ?O1, ?O2; clear - Hc; cbn [In five three app] in Hc;
      destruct Hc as [<-|[<-|[<-|[<-|[<-|[<-|[<-|[<-|[]]]]]]]]]; reflexivity. }
  split.
  - unfold plain_weekly. destruct ZO as [-> | ->]; repeat match goal with |- context [if ?b then _ else _] => destruct b end; lra.
  - unfold raw_total, Rows_Spec.total, plain_perf. cbn [fold_right]. 
    rewrite (RV (mkObs "a" 0 _) 1%R), (RV (mkObs "a" week_ns _) 1%R), (RV (mkObs "b" 0 _) x), (RV (mkObs "b" week_ns _) x); try (cbn; tauto); try reflexivity.
    change (runtime (par plain_design)) with 2. cbn [o_item o_date].
    repeat match goal with |- context [?a <=? ?b] => let v := eval vm_compute in (a <=? b) in change (a <=? b) with v
      | |- context [?a <? ?b] => let v := eval vm_compute in (a <? b) in change (a <? b) with v end.
    rewrite !andb_true_r. unfold plain_weekly.
    assert (CI : i = "a" \/ i = "b") by (unfold ex_assigned in Hi; destruct Hi as [E|[E|[]]]; apply (f_equal fst) in E; cbn [fst] in E; auto).
    destruct CI as [-> | ->]; cbn [String.eqb Ascii.eqb Bool.eqb nadd]; rewrite ndiv_fin by lra; f_equal;
      destruct (existsb (String.eqb c) _); cbn; lra.
Qed.

Lemma plain_arms : arm_used ex_assigned 1 /\ arm_used ex_assigned 0 /\ items_in_arm ex_assigned 0 = ["b"].
Proof. split; [exists "a"; left; vm_compute; reflexivity|]. split; [exists "b"; right; left; vm_compute; reflexivity|]. vm_compute. reflexivity. Qed.

Example c97_example : exists out res,
  prepare_experiment isort_by_date (fun _ _ => Ok (Fin 1)) (fun l => l) (plain_perf 1) ex_assigned plain_design
    (form_columns default_form) 0 true (form_columns default_form) (form_at_least_one default_form) ex_skip = Ok out /\
  notebook_analysis cauchy argsort_ref once out plain_design = Ok res /\ map fst res = eleven.
Proof.
  destruct (plain_prepared 1 (or_intror eq_refl)) as (out & H). exists out.
  destruct (proj2 (c97_notebook_of_a_regular_experiment cauchy argsort_ref once (plain_perf 1) ex_assigned plain_design default_form 0 ex_skip out (plain_weekly 1)
    (plain_concluded 1 out H) once_lists_a_set argsort_ref_sorts (fun c Hc => Hc) eq_refl ltac:(cbn; lia) eq_refl (plain_averages 1 (or_intror eq_refl)))) as (res & E & N).
  - destruct plain_arms as (U1 & U0 & I0). split; auto. split; auto. rewrite I0.
    assert (W : forall c i, plain_weekly 1 c i = 1%R) by (intros c i; unfold plain_weekly; repeat match goal with |- context [if ?b then _ else _] => destruct b end; reflexivity).
    split.
    + intros c s Hc Hs. cbn [map List.length] in *. rewrite W in Hs. destruct Hs as [P _]. apply Permutation_length_1_inv in P. subst s.
      replace (Z.to_nat (trim_each 1 (post (par plain_design)))) with 0%nat.
      * unfold tmean, avg. cbn. lra.
      * unfold trim_each. replace (B2R (post (par plain_design)) * INR 1)%R with 0%R by (replace (B2R (post (par plain_design))) with 0%R by reflexivity; ring).
        unfold rnd. rewrite round_0 by apply valid_rnd_N. now rewrite (Zfloor_IZR 0).
    + intros c Hc. exists "b". rewrite W. split; [|lra]. right. left. vm_compute. reflexivity.
  - exists res. auto.
Qed.

(** data that passes every check, with items in both arms, does not have to be analysable: an item without conversions
    in the control arm and nothing is reported, for no metric *)
Theorem c97_results_come_when_both_arms_have_items_refuted : exists out,
  prepare_experiment isort_by_date (fun _ _ => Ok (Fin 1)) (fun l => l) (plain_perf 0) ex_assigned plain_design
    (form_columns default_form) 0 true (form_columns default_form) (form_at_least_one default_form) ex_skip = Ok out /\
  arm_used ex_assigned 1 /\ arm_used ex_assigned 0 /\
  notebook_analysis cauchy argsort_ref once out plain_design = Err zero_control.
Proof.
  destruct (plain_prepared 0 (or_introl eq_refl)) as (out & H). exists out. split; [exact H|]. destruct plain_arms as (U1 & U0 & I0). split; auto. split; auto.
  assert (CO := plain_concluded 0 out H).
  assert (W := c97_notebook_of_a_regular_experiment cauchy argsort_ref once (plain_perf 0) ex_assigned plain_design default_form 0 ex_skip out (plain_weekly 0)
    CO once_lists_a_set argsort_ref_sorts (fun c Hc => Hc) eq_refl ltac:(cbn; lia) eq_refl (plain_averages 0 (or_introl eq_refl))).
  destruct (c97_what_stops_a_regular_experiment cauchy argsort_ref once (plain_perf 0) ex_assigned plain_design (form_columns default_form)
    (form_at_least_one default_form) 0 ex_skip out notebook_metrics CO once_lists_a_set argsort_ref_sorts) as [S _].
  - discriminate.
  - intros c Hc. apply notebook_columns in Hc.
    change (In c ["clicks"; "impressions"; "total_cost"; "conversions"; "total_conversion_value"; "at_least_one_click"; "at_least_one_impression"; "at_least_one_conversion"]).
    cbn [In five three app] in *. tauto.
  - intros m q Hm EQ. assert (q = f0) as -> by (cbn [In notebook_metrics] in Hm; repeat (destruct Hm as [<-|Hm]; [cbn [ms_override] in EQ; congruence|]); destruct Hm).
    split; [reflexivity|]. replace (B2R f0) with 0%R by reflexivity. lra.
  - reflexivity.
  - cbn. lia.
  - destruct (S U1 U0) as [[E _]|R]; [exact E|]. exfalso. apply W in R as (_ & _ & _ & T3).
    destruct (T3 "at_least_one_conversion" ltac:(cbn; tauto)) as (i & I & P).
    assert (i = "b") as -> by (apply in_arm_iff in I; rewrite I0 in I; destruct I as [<-|[]]; reflexivity). unfold plain_weekly in P. cbn in P. lra.
Qed.

Print Assumptions c97_what_stops_a_regular_experiment.
Print Assumptions c97_without_pretest_results_come_iff.
Print Assumptions c97_notebook_of_a_regular_experiment.
Print Assumptions c97_results_come_when_both_arms_have_items_refuted.
