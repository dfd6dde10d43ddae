(** C65, C66: the significance level of the analysis; analysing many metrics. *)
From Coq Require Import ZArith Reals Lra Lia List String Bool Permutation Sorting.Sorted.
From Flocq Require Import Core BinarySingleNaN.
Require Import Verif.Base Verif.Num Verif.NumOrd Verif.F64 Verif.Frame Verif.ListLib Verif.Design_Model Verif.Design_Spec Verif.Design_Proofs
  Verif.Design_Yaml_Proofs Verif.Design_Props Verif.Periods_Model Verif.Periods_Proofs Verif.Rows_Model Verif.Rows_Spec
  Verif.Trimmed_Model Verif.Trimmed_Spec Verif.Moments Verif.Trimmed_Proofs Verif.Trimmed_Real Verif.Trimmed_Props
  Verif.Cuped_Model Verif.Cuped_Props Verif.Stats_Model Verif.Stats_Num Verif.Stats_Props Verif.Tests_Proofs
  Verif.Tests_Props Verif.Tests_Props2 Verif.Pivot_Model Verif.Pivot_Spec Verif.Pivot_Proofs Verif.Pivot_Props
  Verif.Analysis_Spec Verif.Analysis_Model Verif.Analysis_Props Verif.Effect_Props.
Import ListNotations.
Open Scope string_scope.
Open Scope list_scope.
Open Scope R_scope.

(** *** C65 *)

(** a literal is the closest double *)
Lemma flit_val n d : (Z.abs n <= 2 ^ 53)%Z -> (0 < d <= 2 ^ 53)%Z -> (Z.abs n <= d)%Z ->
  is_finite (flit n d) = true /\ B2R (flit n d) = rnd (IZR n / IZR d).
Proof.
  intros Hn Hd Hnd. unfold flit, fdiv.
  assert (SM : forall z, (Z.abs z <= 2 ^ 53)%Z -> is_finite (of_Z z) = true /\ B2R (of_Z z) = IZR z).
  { intros z Hz. destruct (of_Z_cases z) as [(_ & F & V)|(NF & _)].
    - split; auto. now rewrite V, rnd_IZR.
    - exfalso. apply NF, fits_small. apply IZR_le_bpow; lia. }
  destruct (SM n Hn) as [Fn Vn]. destruct (SM d) as [Fd Vd]; [lia|].
  assert (D0 : B2R (of_Z d) <> 0) by (rewrite Vd; apply not_0_IZR; lia).
  assert (X := Bdiv_correct 53 1024 _ _ mode_NE (of_Z n) (of_Z d) D0). rewrite Vn, Vd in X.
  change (round_mode mode_NE) with ZnearestE in X. rewrite fexp_eq in X. fold (rnd (IZR n / IZR d)) in X.
  rewrite Rlt_bool_true in X.
  - destruct X as (X1 & X2 & _). rewrite X1, X2. auto.
  - apply rnd_abs_lt. apply Rle_trans with (bpow radix2 0); [|apply bpow_le; lia]. cbn [bpow].
    assert (PD : 0 < IZR d) by (apply IZR_lt; lia).
    unfold Rdiv. rewrite Rabs_mult, Rabs_inv, (Rabs_pos_eq (IZR d)), <- abs_IZR by lra.
    apply (Rmult_le_reg_r (IZR d)); auto. rewrite Rmult_assoc, Rinv_l, Rmult_1_r, Rmult_1_l by lra. now apply IZR_le.
Qed.

(** the double closest to 0.05 *)
Lemma default_alpha_value : default_alpha = rnd (5 / 100).
Proof. unfold default_alpha. apply (flit_val 5 100); lia. Qed.

Lemma test_alpha_paired T argsort a b q d1 d2 alternative alpha r :
  yuens_t_test_paired T argsort a b q d1 d2 alternative alpha = Ok r ->
  r_alpha r = alpha /\ r_significant r = nltb (r_p_value r) (Fin alpha).
Proof.
  unfold yuens_t_test_paired. intros H. apply bind_ok in H as (u & _ & H). apply bind_ok in H as ([[x y]|] & _ & H).
  - apply bind_ok in H as (s & _ & H). apply bind_ok in H as (t & _ & H).
    destruct (difference_of_ratios _ _) as [[[[[[? ?] ?] ?] ?] ?] ?] in H. apply finish_test_ok in H. now destruct H.
  - apply bind_ok in H as (s & _ & H). apply bind_ok in H as (t & _ & H). apply finish_test_ok in H. now destruct H.
Qed.
Lemma test_alpha_ind T argsort a b q d1 d2 ev alternative alpha r :
  yuens_t_test_ind T argsort a b q d1 d2 ev alternative alpha = Ok r ->
  r_alpha r = alpha /\ r_significant r = nltb (r_p_value r) (Fin alpha).
Proof.
  unfold yuens_t_test_ind. intros H. apply bind_ok in H as ([[x y]|] & _ & H).
  - apply bind_ok in H as (s1 & _ & H). apply bind_ok in H as (s2 & _ & H).
    apply bind_ok in H as (t1 & _ & H). apply bind_ok in H as (t2 & _ & H).
    apply finish_ind_ok in H as (? & ? & ? & _ & F). now destruct F.
  - apply bind_ok in H as (t1 & _ & H). apply bind_ok in H as (t2 & _ & H).
    apply finish_ind_ok in H as (? & ? & ? & _ & F). now destruct F.
Qed.

(** every analysis of a metric tests at the default level *)
Theorem c65_level_is_always_five_percent :
  forall T argsort K (arm : K -> option Z) t arm_level p m denominator override r,
    analyze_single_metric T argsort arm t arm_level p m denominator override = Ok r ->
    r_alpha r = rnd (5 / 100) /\ (r_significant r = true <-> nltb (r_p_value r) (Fin (rnd (5 / 100))) = true).
Proof.
  intros T argsort K arm t al p m den ov r H. rewrite <- default_alpha_value.
  assert (G : r_alpha r = default_alpha /\ r_significant r = nltb (r_p_value r) (Fin default_alpha)).
  { unfold analyze_single_metric in H. apply bind_ok in H as (s & _ & H). apply bind_ok in H as (d & _ & H). apply bind_ok in H as (u & _ & H).
    destruct (crossover p).
    - unfold analyze_crossover in H. destruct d; now apply test_alpha_paired in H.
    - unfold analyze_regular in H. apply bind_ok in H as (y & _ & H). destruct d as [den'|].
      + apply bind_ok in H as (d & _ & H). now apply test_alpha_ind in H.
      + now apply test_alpha_ind in H. }
  destruct G as [-> ->]. split; reflexivity.
Qed.

(** of the design only these three parameters matter *)
Theorem c65_only_three_parameters_matter :
  forall T argsort K (arm : K -> option Z) t arm_level p p' m denominator override,
    crossover p' = crossover p -> post p' = post p -> ((0 < pretest p')%Z <-> (0 < pretest p)%Z) ->
    analyze_single_metric T argsort arm t arm_level p' m denominator override =
    analyze_single_metric T argsort arm t arm_level p m denominator override.
Proof.
  intros T argsort K arm t al p p' m den ov C P PT. unfold analyze_single_metric, complete, required_periods.
  assert (E : (0 <? pretest p')%Z = (0 <? pretest p)%Z) by (apply eq_true_iff_eq; now rewrite !Z.ltb_lt).
  now rewrite C, P, E.
Qed.

(** with the critical values of the Cauchy distribution: two items per arm, one standard error apart *)
Lemma one_standard_error : exists r,
  yuens_t_test_ind cauchy argsort_ref (data [7; 13]) (data [1; 9]) f0 None None false "two-sided" default_alpha = Ok r /\
  r_p_value r = Fin (1 / 2).
Proof.
  assert (U : usable 2 f0 /\ trim_each 2 f0 = 0%Z) by (apply usable_0; [lia|vm_compute; discriminate]). destruct U as [U U0].
  assert (S1 : sorted_as [7; 13] [7; 13]) by (apply sorted_id; repeat constructor; lra).
  assert (S2 : sorted_as [1; 9] [1; 9]) by (apply sorted_id; repeat constructor; lra).
  assert (A1 : sample [7; 13]) by (split; [discriminate|simpl; lia]).
  assert (A2 : sample [1; 9]) by (split; [discriminate|simpl; lia]).
  destruct (c59_relative_difference_independent cauchy argsort_ref [7; 13] [1; 9] f0 false "two-sided" default_alpha _ _
    argsort_ref_sorts U U S1 S2 ltac:(now left)) as (_ & H & _).
  cbn [List.length] in H. rewrite U0 in H. change (Z.to_nat 0) with 0%nat in H. rewrite (tmean_0 _ _ S1), (tmean_0 _ _ S2) in H.
  assert (M1 : avg [7; 13] = 10) by (unfold avg, Trimmed_Spec.total; simpl; lra). assert (M2 : avg [1; 9] = 5) by (unfold avg, Trimmed_Spec.total; simpl; lra).
  destruct H as (r & _ & _ & H & _); [rewrite M1; lra|rewrite M2; lra|].
  exists r. split; auto.
  destruct (c51_what_the_test_computes cauchy argsort_ref _ _ f0 false "two-sided" default_alpha r _ _ argsort_ref_sorts A1 A2 S1 S2 H)
    as (k1 & k2 & K1 & K2 & _ & _ & GA & _ & _ & G).
  cbn [List.length] in *. rewrite U0 in K1, K2. assert (k1 = 0%nat) by lia. assert (k2 = 0%nat) by lia. subst k1 k2.
  cbn [Nat.mul Nat.sub Nat.add] in G. destruct (G ltac:(lia) ltac:(lia)) as (s & ES & Ps & Sq & DF). clear G.
  rewrite (tdev_0 _ _ S1), (tdev_0 _ _ S2) in Sq, DF. rewrite (tmean_0 _ _ S1), (tmean_0 _ _ S2), M1, M2 in GA.
  assert (Q1 : sqdev [7; 13] = 18) by (unfold sqdev; rewrite M1; simpl; lra).
  assert (Q2 : sqdev [1; 9] = 32) by (unfold sqdev; rewrite M2; simpl; lra).
  rewrite Q1, Q2 in Sq, DF. simpl INR in Sq, DF. assert (S5 : s = 5) by (assert (s ^ 2 = 25) by (rewrite Sq; field); nra). subst s.
  specialize (DF ltac:(lra)).
  unfold yuens_t_test_ind in H. cbn [ratio_arguments bind] in H. apply bind_ok in H as (t1 & _ & H). apply bind_ok in H as (t2 & _ & H).
  apply finish_ind_ok in H as (se & e1 & e2 & _ & F).
  assert (TT := fi_test _ _ _ _ _ _ _ _ _ _ _ _ _ _ F).
  rewrite <- (fi_abs _ _ _ _ _ _ _ _ _ _ _ _ _ _ F), <- (fi_se _ _ _ _ _ _ _ _ _ _ _ _ _ _ F), <- (fi_df _ _ _ _ _ _ _ _ _ _ _ _ _ _ F) in TT.
  rewrite GA, ES, DF in TT. unfold ttest_from_stats in TT. cbn [String.eqb Ascii.eqb Bool.eqb] in TT.
  rewrite ndiv_fin in TT by lra. cbn [nabs nmul] in TT.
  match type of TT with context [t_cdf cauchy (Fin ?df) _] => assert (V : valid_df (Fin df) = true) end.
  { simpl. apply Rlt_bool_true. apply Rmult_lt_0_compat; [nra|]. apply Rinv_0_lt_compat. nra. }
  rewrite t_cdf_fin in TT by auto. assert (EP := f_equal (fun x => match x with Ok y => snd y | Err _ => NaN end) TT). cbn [snd nmul] in EP.
  rewrite <- EP. f_equal. cbn [td_cdf cauchy]. replace ((10 - 5) / 5) with 1 by field. rewrite Rabs_pos_eq by lra.
  replace (-1 * 1) with (- (1)) by ring. rewrite atan_opp, atan_1. field. apply PI_neq0.
Qed.

Theorem c65_agrees_with_a_design_at_five_percent :
  forall T argsort K (arm : K -> option Z) t arm_level p m denominator override r,
    alpha p = flit 5 100 -> analyze_single_metric T argsort arm t arm_level p m denominator override = Ok r ->
    r_alpha r = B2R (alpha p).
Proof.
  intros T argsort K arm t al p m den ov r E H. apply c65_level_is_always_five_percent in H as [-> _].
  rewrite E. symmetry. exact default_alpha_value.
Qed.

(** a design for a test at level 0.75 *)
Definition loose : params :=
  mkParams 1000 2 "clicks" 0 false f0 f0 f0 None (flit 3 4) (flit 8 10) None.
Definition four_items : table (string * Z) :=
  mkT [("clicks", "test")] [(("a", 1%Z), [Fin 7]); (("b", 0%Z), [Fin 1]); (("c", 0%Z), [Fin 9]); (("d", 1%Z), [Fin 13])].
Definition second_level (k : string * Z) : option Z := Some (snd k).

Theorem c65_uses_the_level_of_the_design_refuted :
  exists T argsort t p d r pv, sorts argsort /\ mk_design p = Ok d /\
    analyze_single_metric T argsort second_level t true p "clicks" None None = Ok r /\
    r_p_value r = Fin pv /\ pv < B2R (alpha p) /\ r_significant r = false /\ r_alpha r <> B2R (alpha p).
Proof.
  destruct one_standard_error as (r & H & PV).
  exists cauchy, argsort_ref, four_items, loose, (mkDesignRec loose 1000 1000), r, (1 / 2).
  split; [apply argsort_ref_sorts|]. split; [apply mk_design_check; vm_compute; reflexivity|].
  assert (HA : analyze_single_metric cauchy argsort_ref second_level four_items true loose "clicks" None None = Ok r).
  { rewrite <- H. rewrite (analysis_regular second_level cauchy argsort_ref four_items loose "clicks"
      [(Some 1%Z, Fin 7); (Some 0%Z, Fin 1); (Some 0%Z, Fin 9); (Some 1%Z, Fin 13)] None); auto.
    - repeat constructor. intros [].
    - cbn. intros [E|[]]. discriminate.
    - split; [reflexivity|]. exists 0%nat. split; [reflexivity|]. repeat constructor. }
  split; auto. split; auto. destruct (flit_val 3 4) as [F1 V1]; [lia..|].
  assert (A34 : B2R (alpha loose) = 3 / 4).
  { cbn [alpha loose]. rewrite V1. apply round_generic; auto with typeclass_instances.
    apply generic_format_FLT. exists (Float radix2 3 (-2)); cbn; [unfold F2R; simpl; lra|lia|lia]. }
  rewrite A34. apply c65_level_is_always_five_percent in HA as [RA RS]. rewrite PV in RS.
  assert (B : rnd (5 / 100) <= 1 / 16 * 1).
  { apply round_le_generic; auto with typeclass_instances; [|lra].
    apply generic_format_FLT. exists (Float radix2 1 (-4)); cbn; [unfold F2R; simpl; lra|lia|lia]. }
  split; [lra|]. split.
  - destruct (r_significant r); auto. assert (X := proj1 RS eq_refl). apply nltb_fin in X. lra.
  - rewrite RA. lra.
Qed.

(** *** C66 *)

(** list(set(...)): the same members, once each, in some order *)
Definition lists_a_set (as_list : list string -> list string) : Prop :=
  forall l, NoDup (as_list l) /\ forall x, In x (as_list l) <-> In x l.

Lemma mapM_pairs {A B} (f : A -> string) (g : A -> result B) : forall l res,
  mapM (fun m => let! r := g m in Ok (f m, r)) l = Ok res ->
  map fst res = map f l /\ Forall2 (fun m x => g m = Ok (snd x)) l res.
Proof.
  induction l as [|m l IH]; intros res H; cbn [mapM] in H.
  - inversion H. split; constructor.
  - apply bind_ok in H as (x & Hx & H). apply bind_ok in H as (xs & Hxs & H). apply bind_ok in Hx as (r & Hr & Hx).
    inversion Hx; subst x. inversion H; subst res. destruct (IH xs Hxs) as [I1 I2]. cbn [map fst]. split; [now rewrite I1|].
    constructor; auto.
Qed.

(** one result per metric, in order, each that of the single metric on the pivoted table *)
Theorem c66_one_result_per_metric :
  forall T argsort as_list f metrics p week item treat f' res,
    analyze_experiment T argsort as_list f metrics p week item treat = (f', Ok res) ->
    f' = f /\ map fst res = map ms_name metrics /\
    exists t, snd (pivot_time_assignment f p 0 (as_list (metric_columns_of metrics)) item week (Some treat) "time_period") = Ok t /\
      Forall2 (fun m x => analyze_single_metric T argsort key_arm t true p (ms_column m) (ms_denominator m) (ms_override m) = Ok (snd x))
        metrics res.
Proof.
  intros T argsort as_list f metrics p week item treat f' res H. unfold analyze_experiment in H.
  destruct metrics as [|m0 ms]; [discriminate|]. set (metrics := m0 :: ms) in *.
  set (cols := as_list (metric_columns_of metrics)) in *.
  destruct (pivot_time_assignment f p 0 cols item week (Some treat) "time_period") as [f1 pv] eqn:EP.
  assert (f1 = f' /\ (let! t := pv in mapM (fun m => let! r := analyze_single_metric T argsort key_arm t true p (ms_column m) (ms_denominator m) (ms_override m) in
                          Ok (ms_name m, r)) metrics) = Ok res) as [EF HM] by (inversion H; auto). subst f1. clear H.
  apply bind_ok in HM as (t & -> & HM).
  assert (FE : f' = f).
  { assert (X := c15_successful_pivot_leaves_the_frame_unchanged f (mkCall p 0 cols item week (Some treat) "time_period") t).
    unfold run_call in X. cbn in X. rewrite EP in X. now apply X. }
  destruct (mapM_pairs _ _ _ _ HM) as [I1 I2]. cbn [snd]. eauto.
Qed.

(** the weekly average of a column over the weeks of a period, for the rows of one item *)
Definition weekly_average (lab : Z -> label) (cols : list string) (rows : list (prow akey)) (c s : string) (k : akey) (v : num) : Prop :=
  exists n, (0 < n)%nat /\ has_card (fun w => lab w = Some s) n /\
    forall cond, (forall r, cond r = true <-> p_key r = k /\ in_period lab s r) ->
      v = ndiv (Rows_Spec.total cond (metric_value cols c) rows) (Fin (INR n)).

Lemma tab_holds {K} (cols : list (string * string)) (keys : list K) F c : In c cols ->
  holds (tab cols keys F) c (map (fun k => F k c) keys).
Proof.
  intros H. apply In_nth_error in H as (i & Hi). exists i. split; auto. unfold tab. cbn [t_rows].
  induction keys as [|k keys IH]; simpl; constructor; auto. cbn [snd]. now rewrite nth_error_map, Hi.
Qed.

Lemma cols_at_NoDup {K} (keqb kleb : K -> K -> bool) lab metrics rows : NoDup metrics -> NoDup (cols_at keqb kleb lab metrics rows).
Proof.
  intros H. unfold cols_at.
  assert (P : forall (a b : list string), NoDup a -> NoDup b -> NoDup (list_prod a b)).
  { induction a as [|x a IH]; intros b Na Nb; simpl; [constructor|]. inversion Na as [|? ? N1 N2]; subst.
    apply NoDup_app'; auto.
    - apply FinFun.Injective_map_NoDup; auto. intros u v E. now inversion E.
    - intros [u v] H1 H2. apply in_map_iff in H1 as (w & E & _). inversion E; subst. apply in_prod_iff in H2 as [H2 _]. auto. }
  apply P.
  - now apply isort_NoDup.
  - apply isort_NoDup, dedup_NoDup, String.eqb_eq.
Qed.

Lemma label_fun_total p d : mk_design p = Ok d -> exists lab, label_fun p 0 = Ok lab.
Proof.
  intros H. apply mk_design_iff in H as [D _]. unfold label_fun. destruct (crossover p) eqn:C; eauto.
  destruct (ok_crossover _ D C) as (w & -> & _). eauto.
Qed.

Lemma metric_subset_tab {K} (arm : K -> option Z) cols (keys : list K) F m sub : NoDup cols ->
  metric_subset arm (tab cols keys F) true m = Ok sub ->
  s_arms sub = Some (map arm keys) /\
  (forall s, In (m, s) cols -> sget s (s_periods sub) = Some (map (fun k => F k (m, s)) keys)) /\
  (forall s, ~ In (m, s) cols -> sget s (s_periods sub) = None).
Proof.
  intros ND H. unfold metric_subset in H. destruct (existsb _ _); [|discriminate].
  apply (f_equal (fun r => match r with Ok a => a | Err _ => sub end)) in H. cbn beta iota in H. rewrite <- H. clear H.
  cbn [s_arms s_periods]. split; [unfold tab; cbn [t_rows]; now rewrite map_map|]. split.
  - intros s Hs. destruct (tab_holds cols keys F _ Hs) as (j & Hj & HF).
    etransitivity; [exact (sget_columns (column_at (tab cols keys F)) m s cols 0 j ND Hj)|]. f_equal. now apply column_at_holds.
  - intros s N. now apply sget_absent.
Qed.

(** the periods an analysis needs *)
Definition needed (p : params) (s : string) : Prop :=
  if crossover p then s = "test_1" \/ s = "test_2" else s = "test" \/ (s = "pretest" /\ (0 < pretest p)%Z).

(** the arm an item is listed with *)
Definition recorded_arm (k : akey) : option Z := match snd k with [a] => Some a | _ => None end.
(** what is tested for one metric, from the values per item *)
Definition tested (T : tdist) (argsort : list num -> list nat) (p : params) (keys : list akey) (V : string -> string -> akey -> num)
  (m : metric_spec) : result tresult :=
  let q := match ms_override m with Some q => q | None => post p end in
  let arms := map recorded_arm keys in
  let column c s := map (V c s) keys in
  if crossover p then
    let y c := prepare_crossover (column c "test_1") (column c "test_2") arms (is_zero q) in
    let n := y (ms_column m) in
    match ms_denominator m with
    | None => yuens_t_test_paired T argsort (fst n) (snd n) q None None "two-sided" (rnd (5 / 100))
    | Some c => yuens_t_test_paired T argsort (fst n) (snd n) q (Some (fst (y c))) (Some (snd (y c))) "two-sided" (rnd (5 / 100))
    end
  else
    let y c := if (0 <? pretest p)%Z then apply_cuped_adjustment argsort (column c "test") (column c "pretest") q else Ok (column c "test") in
    let arm a l := select (map (arm_is a) arms) l in
    let! n := y (ms_column m) in
    match ms_denominator m with
    | None => yuens_t_test_ind T argsort (arm 1%Z n) (arm 0%Z n) q None None false "two-sided" (rnd (5 / 100))
    | Some c => let! d := y c in
        yuens_t_test_ind T argsort (arm 1%Z n) (arm 0%Z n) q (Some (arm 1%Z d)) (Some (arm 0%Z d)) false "two-sided" (rnd (5 / 100))
    end.

Lemma complete_needed {K} (arm : K -> option Z) cols (keys : list K) F m sub p : NoDup cols ->
  metric_subset arm (tab cols keys F) true m = Ok sub -> complete p sub = true ->
  forall s, needed p s -> In (m, s) cols.
Proof.
  intros ND H C s N. destruct (metric_subset_tab arm cols keys F m sub ND H) as (_ & _ & A).
  unfold complete in C. apply andb_true_iff in C as [_ C]. rewrite forallb_forall in C.
  assert (R : In s (required_periods p)).
  { unfold needed, required_periods in *. destruct (crossover p).
    - destruct N as [->| ->]; simpl; auto.
    - destruct N as [->|[-> N]].
      + destruct (0 <? pretest p)%Z; simpl; auto.
      + apply Z.ltb_lt in N. rewrite N. simpl. auto. }
  specialize (C s R). cbn beta in C.
  destruct (in_dec (fun a b : string * string => ltac:(decide equality; apply string_dec)) (m, s) cols) as [I|I]; auto.
  rewrite (A s I) in C. discriminate.
Qed.

Lemma analysis_tested T argsort cols keys F p (m : metric_spec) r :
  NoDup cols -> (crossover p = false -> pretest p = 0%Z -> forall c, ~ In (c, "pretest") cols) -> (0 <= pretest p)%Z ->
  analyze_single_metric T argsort key_arm (tab cols keys F) true p (ms_column m) (ms_denominator m) (ms_override m) = Ok r ->
  tested T argsort p keys (fun c s k => F k (c, s)) m = Ok r /\
  forall c s, c = ms_column m \/ ms_denominator m = Some c -> needed p s -> In (c, s) cols.
Proof.
  intros ND NP PT H. unfold analyze_single_metric in H. apply bind_ok in H as (sub & HS & H).
  apply bind_ok in H as (den & HD & H). apply bind_ok in H as (u & HC & H).
  apply raise_if_ok in HC. apply negb_false_iff, andb_true_iff in HC as [C1 C2].
  assert (N1 := complete_needed key_arm cols keys F _ _ p ND HS C1).
  destruct (metric_subset_tab key_arm cols keys F _ _ ND HS) as (A1 & G1 & G1').
  assert (N2 : forall c s, ms_denominator m = Some c -> needed p s -> In (c, s) cols).
  { intros c s E N. rewrite E in HD. apply bind_ok in HD as (sd & HSd & HD). inversion HD; subst den.
    eapply (complete_needed key_arm cols keys F); eauto. }
  split; [|intros c s [->|E] N; eauto].
  assert (DD : match ms_denominator m, den with
    | None, None => True
    | Some c, Some sd => s_arms sd = Some (map key_arm keys) /\
        (forall s, In (c, s) cols -> sget s (s_periods sd) = Some (map (fun k => F k (c, s)) keys)) /\
        (forall s, ~ In (c, s) cols -> sget s (s_periods sd) = None)
    | _, _ => False end).
  { destruct (ms_denominator m) as [c|].
    - apply bind_ok in HD as (sd & HSd & HD). inversion HD; subst den. now apply (metric_subset_tab key_arm cols keys F).
    - inversion HD; subst den. auto. }
  unfold tested. change recorded_arm with key_arm. rewrite <- default_alpha_value.
  replace (match ms_override m with Some q => q | None => post p end) with (match ms_override m with None => post p | Some q => q end) by (now destruct (ms_override m)).
  set (q := match ms_override m with None => post p | Some q => q end) in *. unfold needed in N1, N2.
  destruct (crossover p) eqn:C.
  - unfold analyze_crossover, period_values, arm_values in H. rewrite A1, (G1 "test_1"), (G1 "test_2") in H by auto.
    destruct (ms_denominator m) as [c|], den as [sd|]; try contradiction; [|exact H].
    destruct DD as (A2 & G2 & _). rewrite A2, (G2 "test_1"), (G2 "test_2") in H by auto. exact H.
  - assert (PP : forall c sd, s_arms sd = Some (map key_arm keys) ->
       (forall s, In (c, s) cols -> sget s (s_periods sd) = Some (map (fun k => F k (c, s)) keys)) ->
       (forall s, ~ In (c, s) cols -> sget s (s_periods sd) = None) ->
       In (c, "test") cols -> ((0 < pretest p)%Z -> In (c, "pretest") cols) ->
       prepare_regular argsort (period_values sd "test") (sget "pretest" (s_periods sd)) (arm_values sd) q =
       let! y := (if (0 <? pretest p)%Z then apply_cuped_adjustment argsort (map (fun k => F k (c, "test")) keys) (map (fun k => F k (c, "pretest")) keys) q
                  else Ok (map (fun k => F k (c, "test")) keys)) in
       Ok (select (map (arm_is 1) (map key_arm keys)) y, select (map (arm_is 0) (map key_arm keys)) y)).
    { intros c sd A G G' I1 I2. unfold prepare_regular, period_values, arm_values. rewrite A, (G "test") by auto.
      destruct (0 <? pretest p)%Z eqn:E.
      - apply Z.ltb_lt in E. now rewrite (G "pretest") by auto.
      - apply Z.ltb_ge in E. rewrite (G' "pretest"); [reflexivity|]. apply NP; auto. lia. }
    unfold analyze_regular in H. rewrite (PP (ms_column m) sub) in H; auto.
    destruct (if (0 <? pretest p)%Z then apply_cuped_adjustment argsort (map (fun k => F k (ms_column m, "test")) keys) (map (fun k => F k (ms_column m, "pretest")) keys) q
                  else Ok (map (fun k => F k (ms_column m, "test")) keys)) as [y|e]; [|discriminate]. cbn [bind fst snd] in *.
    destruct (ms_denominator m) as [c|], den as [sd|]; try contradiction; [|exact H].
    destruct DD as (A2 & G2 & G2'). rewrite (PP c sd) in H; auto.
    destruct (if (0 <? pretest p)%Z then _ else _) as [z|e]; [|discriminate]. exact H.
Qed.

(** from the raw rows to the results *)
Theorem c66_end_to_end :
  forall T argsort as_list f metrics p d lab week item treat f' res,
    lists_a_set as_list -> mk_design p = Ok d -> label_fun p 0 = Ok lab ->
    let cols := as_list (metric_columns_of metrics) in
    let rows := frame_rows f cols item week (Some treat) in
    calm rows ->
    analyze_experiment T argsort as_list f metrics p week item treat = (f', Ok res) ->
    exists keys V,
      StronglySorted (fun a b => akleb a b = true /\ a <> b) keys /\
      (forall k, In k keys <-> exists r s, In r rows /\ p_key r = k /\ in_period lab s r) /\
      (forall s, needed p s -> exists r, In r rows /\ in_period lab s r) /\
      (forall c s k, In c (metric_columns_of metrics) -> needed p s -> In k keys -> weekly_average lab cols rows c s k (V c s k)) /\
      Forall2 (fun m x => fst x = ms_name m /\ tested T argsort p keys V m = Ok (snd x)) metrics res.
Proof.
  intros T argsort as_list f metrics p d lab week item treat f' res HL HD HLab cols rows HC H.
  destruct (c66_one_result_per_metric _ _ _ _ _ _ _ _ _ _ _ H) as (_ & NM & t & HP & HR). fold cols in HP.
  assert (NE : metrics <> []) by (intros ->; unfold analyze_experiment in H; discriminate H).
  destruct (HL (metric_columns_of metrics)) as [NDc INc]. fold cols in NDc, INc.
  assert (NC : cols <> []).
  { destruct metrics as [|m ms]; [congruence|]. intros E. assert (X := proj2 (INc (ms_column m)) (or_introl eq_refl)). rewrite E in X. destruct X. }
  assert (HPR : pivot_rows akeqb akleb p 0 cols rows = Ok t).
  { unfold pivot_time_assignment in HP. destruct (has_col _ _); [discriminate|]. destruct (existsb _ _); [discriminate|].
    rewrite HLab in HP. fold rows in HP. destruct (pivot_rows akeqb akleb p 0 cols rows); [|discriminate]. cbn in HP. congruence. }
  assert (ET := pivot_rows_tab akeqb akleb akey_ord p d 0 lab cols rows t HD HLab HC HPR).
  destruct (c14_values_are_weekly_averages _ _ _ p d 0%Z lab cols rows t akey_ord HD HLab HC NC HPR) as (CK & CS & CCo & CE).
  set (keys := keys_at akeqb akleb lab (List.length cols) rows) in *.
  set (F := fun (k : akey) (c : string * string) => ndiv (Rows_Spec.total (is_at akeqb lab k (snd c)) (metric_value cols (fst c)) rows) (Fin (IZR (weeks_of p (snd c))))) in *.
  set (tc := cols_at akeqb akleb lab cols rows) in *.
  assert (KE : map fst (t_rows t) = keys) by (rewrite ET; unfold tab; cbn [t_rows]; rewrite map_map; apply map_id).
  rewrite KE in CK, CS, CE. assert (TE : t_cols t = tc) by now rewrite ET. rewrite TE in CCo, CE.
  assert (NDt : NoDup tc) by now apply cols_at_NoDup.
  assert (D := HD). apply mk_design_iff in D as [D _].
  assert (NP : crossover p = false -> pretest p = 0%Z -> forall c, ~ In (c, "pretest") tc).
  { intros C P c I. apply CCo in I as (_ & r & _ & w & _ & LW). unfold label_fun in HLab. rewrite C in HLab. inversion HLab; subst lab.
    assert (SP := regular_label_spec 0 (pretest p) (runtime p) w ltac:(lia) ltac:(generalize (ok_runtime _ D); lia)).
    unfold regular_spec in SP. rewrite LW in SP. destruct SP as [[SP X]|[[SP X]|[SP X]]]; try discriminate.
    unfold in_span in X. lia. }
  rewrite ET in HR.
  assert (HR2 : Forall2 (fun m x => tested T argsort p keys (fun c s k => F k (c, s)) m = Ok (snd x) /\
      forall c s, c = ms_column m \/ ms_denominator m = Some c -> needed p s -> In (c, s) tc) metrics res).
  { assert (FI : forall A B (P Q : A -> B -> Prop) la lb, (forall a b, P a b -> Q a b) -> Forall2 P la lb -> Forall2 Q la lb)
      by (intros A B P Q la lb PQ; induction 1; constructor; auto).
    eapply FI; [|exact HR]. intros m x X. apply analysis_tested in X; auto. apply (ok_pretest _ D). }
  clear HR H. exists keys, (fun c s k => F k (c, s)). split; [exact CS|]. split; [exact CK|].
  assert (EV : forall m, In m metrics -> forall c s, c = ms_column m \/ ms_denominator m = Some c -> needed p s -> In (c, s) tc).
  { assert (FI : forall A B (P : A -> B -> Prop) (Q : A -> Prop) la lb, (forall a b, P a b -> Q a) -> Forall2 P la lb -> forall a, In a la -> Q a).
    { intros A B P Q la lb PQ. induction 1 as [|a b la lb X _ IH]; intros z IN; [destruct IN|]. destruct IN as [<-|IN]; eauto. }
    refine (FI _ _ _ (fun m => forall c s, c = ms_column m \/ ms_denominator m = Some c -> needed p s -> In (c, s) tc) _ _ _ HR2). intros m x [_ X]. exact X. }
  assert (ND2 : forall c s, In c (metric_columns_of metrics) -> needed p s -> In (c, s) tc).
  { intros c s I N. unfold metric_columns_of in I. apply in_app_or in I as [I|I].
    - apply in_map_iff in I as (m & <- & I). apply (EV m); auto.
    - apply in_flat_map in I as (m & I & X). destruct (ms_denominator m) as [c'|] eqn:E; [|destruct X]. destruct X as [<-|[]]. apply (EV m); auto. }
  split.
  { intros s N. destruct metrics as [|m ms]; [congruence|]. assert (X := ND2 (ms_column m) s (or_introl eq_refl) N). now apply CCo in X as (_ & X). }
  split.
  { intros c s k I N Hk. destruct (CE k c s Hk (ND2 c s I N)) as (n & P & Ca & E). exists n. split; auto. split; auto.
    intros cond HX. specialize (E cond HX). rewrite ET in E. rewrite (entry_tab akeqb akleb akey_ord) in E by auto. congruence. }
  assert (FI : forall (P : metric_spec -> string * tresult -> Prop) la lb, map fst lb = map ms_name la -> Forall2 P la lb ->
     Forall2 (fun m x => fst x = ms_name m /\ P m x) la lb).
  { intros P la lb X. induction 1 as [|a b la lb Y _ IH]; cbn [map] in X; constructor; inversion X; auto. }
  apply (FI _ _ _ NM) in HR2.
  assert (FJ : forall (P Q : metric_spec -> string * tresult -> Prop) la lb, (forall a b, P a b -> Q a b) -> Forall2 P la lb -> Forall2 Q la lb)
    by (intros P Q la lb PQ; induction 1; constructor; auto).
  revert HR2. apply FJ. intros m x (X1 & X2 & _). auto.
Qed.

(** without data for a period that the design needs nothing is returned *)
Theorem c66_missing_period_is_an_error :
  forall T argsort as_list f metrics p d lab week item treat s,
    lists_a_set as_list -> mk_design p = Ok d -> label_fun p 0 = Ok lab ->
    let rows := frame_rows f (as_list (metric_columns_of metrics)) item week (Some treat) in
    calm rows -> needed p s -> (forall r, In r rows -> ~ in_period lab s r) ->
    exists e, snd (analyze_experiment T argsort as_list f metrics p week item treat) = Err e.
Proof.
  intros T argsort as_list f metrics p d lab week item treat s HL HD HLab rows HC N M.
  destruct (analyze_experiment T argsort as_list f metrics p week item treat) as [f' [res|e]] eqn:E; [|exists e; reflexivity]. exfalso.
  destruct (c66_end_to_end _ _ _ _ _ _ _ _ _ _ _ _ _ HL HD HLab HC E) as (keys & V & _ & _ & X & _).
  destruct (X s N) as (r & I & P). exact (M r I P).
Qed.

(** Concrete cases. *)
Definition once (l : list string) : list string := nodup string_dec l.
Lemma once_lists_a_set : lists_a_set once.
Proof. intros l. split; [apply NoDup_nodup|intros x; apply nodup_In]. Qed.
Definition small_frame : frame :=
  [("item", [CStr "a"; CStr "a"; CStr "b"; CStr "c"; CStr "d"; CStr "d"]);
   ("week", [CZ 0; CZ 1; CZ 0; CZ 1; CZ 1; CZ 7]);
   ("arm", [CZ 1; CZ 1; CZ 0; CZ 0; CZ 1; CZ 1]);
   ("clicks", [CNum (Fin 3); CNum (Fin 4); CNum (Fin 1); CNum (Fin 9); CNum (Fin 13); CNum (Fin 100)])].
Definition small_metrics : list metric_spec := [mkMetric "Clicks" "clicks" None None; mkMetric "Again" "clicks" None (Some f0)].

Example c66_example : exists d lab res,
  lists_a_set once /\ mk_design plain_design = Ok d /\ label_fun plain_design 0 = Ok lab /\
  calm (frame_rows small_frame (once (metric_columns_of small_metrics)) "item" "week" (Some "arm")) /\
  analyze_experiment cauchy argsort_ref once small_frame small_metrics plain_design "week" "item" "arm" = (small_frame, Ok res) /\
  map fst res = ["Clicks"; "Again"].
Proof.
  assert (U2 : usable 2 f0) by (apply usable_0; [lia|vm_compute; discriminate]).
  destruct (positive_runs [(3 + (4 + 0)) / 2; (13 + 0) / 2] [(1 + 0) / 2; (9 + 0) / 2] U2 U2) as (r & Hr); [unfold avg; simpl; lra|unfold avg; simpl; lra|].
  exists (mkDesignRec plain_design 1000 1000), (regular_label 0 0 2), [("Clicks", r); ("Again", r)].
  split; [exact once_lists_a_set|]. split; [apply mk_design_check; vm_compute; reflexivity|]. split; [reflexivity|]. split.
  - intros x Hx. repeat (destruct Hx as [<-|Hx]; [constructor; [split; discriminate|constructor]|]). destruct Hx.
  - split; [|reflexivity]. unfold analyze_experiment. cbv beta iota.
    destruct (pivot_time_assignment small_frame plain_design 0 (once (metric_columns_of small_metrics)) "item" "week" (Some "arm") "time_period") as [f' pv] eqn:EP.
    assert (E2 : pivot_time_assignment small_frame plain_design 0 (once (metric_columns_of small_metrics)) "item" "week" (Some "arm") "time_period" =
      (small_frame, Ok (mkT [("clicks", "test")]
         [(("a", [1%Z]), [ndiv (Fin (3 + (4 + 0))) (Fin 2)]); (("b", [0%Z]), [ndiv (Fin (1 + 0)) (Fin 2)]);
          (("c", [0%Z]), [ndiv (Fin (9 + 0)) (Fin 2)]); (("d", [1%Z]), [ndiv (Fin (13 + 0)) (Fin 2)])]))) by reflexivity.
    rewrite !ndiv_fin in E2 by lra. rewrite E2 in EP. inversion EP; subst f' pv. clear EP E2.
    match goal with |- context [bind (Ok ?t)] => set (t0 := t) end.
    assert (AN : forall o, chosen plain_design o = f0 -> analyze_single_metric cauchy argsort_ref key_arm t0 true plain_design "clicks" None o = Ok r).
    { intros o E. rewrite (analysis_regular key_arm cauchy argsort_ref t0 plain_design "clicks"
        [(Some 1%Z, Fin ((3 + (4 + 0)) / 2)); (Some 0%Z, Fin ((1 + 0) / 2)); (Some 0%Z, Fin ((9 + 0) / 2)); (Some 1%Z, Fin ((13 + 0) / 2))] o); auto.
      - now rewrite E.
      - repeat constructor. intros [].
      - simpl. intuition discriminate.
      - split; [reflexivity|]. exists 0%nat. split; [reflexivity|]. repeat constructor. }
    unfold small_metrics. cbn [mapM bind ms_column ms_denominator ms_override ms_name]. rewrite !AN by reflexivity. reflexivity.
Qed.

(** the only rows of a period are missing: nothing is returned *)
Example c66_example_missing :
  needed pretest_design "pretest" /\ exists d lab, mk_design pretest_design = Ok d /\ label_fun pretest_design 0 = Ok lab /\
  forall r, In r (frame_rows small_frame (once (metric_columns_of small_metrics)) "item" "week" (Some "arm")) -> ~ in_period lab "pretest" r.
Proof.
  split; [right; split; [reflexivity|simpl; lia]|]. exists (mkDesignRec pretest_design 1000 1000), (regular_label 0 1 2).
  split; [apply mk_design_check; vm_compute; reflexivity|]. split; [reflexivity|].
  intros x Hx (w & E & L). repeat (destruct Hx as [<-|Hx]; [cbn in E; inversion E; subst w; discriminate L|]). destruct Hx.
Qed.

Print Assumptions c65_level_is_always_five_percent.
Print Assumptions c65_only_three_parameters_matter.
Print Assumptions c65_agrees_with_a_design_at_five_percent.
Print Assumptions c65_uses_the_level_of_the_design_refuted.
Print Assumptions c66_one_result_per_metric.
Print Assumptions c66_end_to_end.
Print Assumptions c66_missing_period_is_an_error.
