(** C102: without trimming, ratio metrics compare ratios of totals of the raw rows. *)
From Coq Require Import ZArith Reals Lra Lia List String Ascii Bool Permutation Sorting.Sorted.
From Flocq Require Import Core BinarySingleNaN.
Require Verif.Denominator_Props.
Require Import Verif.Base Verif.Num Verif.NumOrd Verif.F64 Verif.Frame Verif.ListLib Verif.Design_Model Verif.Design_Spec Verif.Design_Proofs
  Verif.Design_Yaml_Proofs Verif.Design_Props Verif.Trimmed_Model Verif.Trimmed_Spec Verif.Moments Verif.Trimmed_Proofs Verif.Trimmed_Real Verif.Trimmed_Props
  Verif.Cuped_Model Verif.Cuped_Props Verif.Stats_Model Verif.Stats_Num Verif.Stats_Props Verif.Tests_Proofs
  Verif.Tests_Props Verif.Tests_Props2 Verif.Periods_Model Verif.Periods_Proofs Verif.Periods_Props
  Verif.Rows_Model Verif.Rows_Spec Verif.Rows_Proofs Verif.Rows_Props
  Verif.Checks_Model Verif.Checks_Spec Verif.Checks_Proofs Verif.Checks_Props
  Verif.Pivot_Model Verif.Pivot_Spec Verif.Pivot_Proofs Verif.Pivot_Props
  Verif.Analysis_Spec Verif.Analysis_Model Verif.Analysis_Props Verif.Effect_Props Verif.Analysis_Props2
  Verif.Pipeline_Model Verif.Pipeline_Spec Verif.Pipeline_Proofs Verif.Experiment_Props Verif.Assign_Props Verif.Journey_Model Verif.Journey_Proofs
  Verif.Journey_Props Verif.Standard_Model Verif.Standard_Props Verif.Entry_Model Verif.Entry_Proofs Verif.Analyzer_Model Verif.Analyzer_Props Verif.Analyzer_Props2 Verif.Analyzer_Props3 Verif.Totals_Props
  Verif.Regular_Props Verif.Regular_Props3.
Import ListNotations.
Open Scope string_scope.
Open Scope list_scope.
Open Scope Z_scope.

(** the total of a column over the raw rows of some items in the weeks [a], ..., [b] - 1 *)
Definition weeks_total (perf : list obs) (value : obs -> num) (items : list string) (start a b : Z) : num :=
  nsum (map (fun i => raw_total perf value i (start + a * week_ns) (start + b * week_ns)) items).

(** *** Tests without trimming *)
Lemma no_trimming n q : B2R q = 0%R -> trim_each n q = 0.
Proof. intros Q. unfold trim_each. rewrite Q, Rmult_0_l, rnd_0. apply (Zfloor_IZR 0). Qed.

Lemma means_untrimmed argsort rows xs q t : sorts argsort -> rows <> [] -> (forall r, In r rows -> List.length r = List.length xs) -> sample xs ->
  B2R q = 0%R -> mk_trimmed argsort (map data rows) q = Ok t -> t_mean argsort t = map (fun r => Fin (avg r)) rows.
Proof.
  intros HS N L Sx Q Ht.
  assert (FT : finite_trimmed t rows (List.length xs) (t_k t)) by (apply (rows_finite argsort HS q xs rows t Sx L N Ht)).
  assert (A : array (List.length xs) (fins rows)) by (apply sample_array; auto).
  destruct (c43_trims_floor_of_quantile_times_n argsort _ q _ t HS A Ht) as (E & _ & _). fold (trim_each (List.length xs) q) in E. rewrite (no_trimming _ q Q) in E.
  assert (K : t_k t = 0%nat) by lia.
  rewrite (mean_real argsort HS t rows _ _ FT). apply map_ext_in. intros r Hr. f_equal. now apply (avg_untrimmed argsort t rows (List.length xs)).
Qed.

Lemma ind_ratio_untrimmed T argsort xs ys ds es q ev alternative alpha r : sorts argsort -> B2R q = 0%R -> sample xs -> sample ys ->
  yuens_t_test_ind T argsort (data xs) (data ys) q (Some (data ds)) (Some (data es)) ev alternative alpha = Ok r ->
  List.length ds = List.length xs -> List.length es = List.length ys ->
  r_control_average r = ndiv (Fin (avg ys)) (Fin (avg es)) /\ r_abs r = nsub (ndiv (Fin (avg xs)) (Fin (avg ds))) (ndiv (Fin (avg ys)) (Fin (avg es))).
Proof.
  intros HS Q Sx Sy H L1 L2. unfold yuens_t_test_ind in H. cbn [ratio_arguments bind] in H.
  apply bind_ok in H as (r1 & N1 & H). apply bind_ok in H as (r2 & N2 & H). apply stack_ok in N1 as [-> _]. apply stack_ok in N2 as [-> _].
  apply bind_ok in H as (t1 & B1 & H). apply bind_ok in H as (t2 & B2 & H).
  change [data xs; data ds] with (map data [xs; ds]) in B1. change [data ys; data es] with (map data [ys; es]) in B2.
  apply (means_untrimmed argsort _ xs) in B1; auto; [|discriminate|intros r0 [<-|[<-|[]]]; auto].
  apply (means_untrimmed argsort _ ys) in B2; auto; [|discriminate|intros r0 [<-|[<-|[]]]; auto].
  rewrite B1, B2 in H. cbn [map vec nth] in H. unfold vec in H. cbn [nth] in H.
  apply finish_ind_ok in H as (se & e1 & e2 & _ & F). destruct F. rewrite fi_control, fi_abs. split; reflexivity.
Qed.

Lemma ind_plain_untrimmed T argsort xs ys q ev alternative alpha r : sorts argsort -> B2R q = 0%R -> sample xs -> sample ys ->
  yuens_t_test_ind T argsort (data xs) (data ys) q None None ev alternative alpha = Ok r ->
  r_control_average r = Fin (avg ys) /\ r_abs r = Fin (avg xs - avg ys).
Proof.
  intros HS Q Sx Sy H. unfold yuens_t_test_ind in H. cbn [ratio_arguments bind] in H.
  apply bind_ok in H as (t1 & B1 & H). apply bind_ok in H as (t2 & B2 & H).
  change [data xs] with (map data [xs]) in B1. change [data ys] with (map data [ys]) in B2.
  apply (means_untrimmed argsort _ xs) in B1; auto; [|discriminate|intros r0 [<-|[]]; auto].
  apply (means_untrimmed argsort _ ys) in B2; auto; [|discriminate|intros r0 [<-|[]]; auto].
  rewrite B1, B2 in H. unfold vec in H. cbn [map nth] in H.
  apply finish_ind_ok in H as (se & e1 & e2 & _ & F). destruct F. rewrite fi_control, fi_abs. split; [reflexivity|apply nsub_fin].
Qed.

Lemma paired_ratio_untrimmed T argsort xs ys ds es q alternative alpha r : sorts argsort -> B2R q = 0%R -> sample xs -> 
  yuens_t_test_paired T argsort (data xs) (data ys) q (Some (data ds)) (Some (data es)) alternative alpha = Ok r ->
  List.length ys = List.length xs -> List.length ds = List.length xs -> List.length es = List.length xs ->
  r_control_average r = ndiv (Fin (avg ys)) (Fin (avg es)) /\ r_abs r = nsub (ndiv (Fin (avg xs)) (Fin (avg ds))) (ndiv (Fin (avg ys)) (Fin (avg es))).
Proof.
  intros HS Q Sx H L1 L2 L3. unfold yuens_t_test_paired in H. apply bind_ok in H as ([] & _ & H). cbn [ratio_arguments bind] in H.
  apply bind_ok in H as (st & N1 & H). apply stack_ok in N1 as [-> _]. apply bind_ok in H as (t & B & H).
  assert (DF : differences (data xs) (data ys) = data (minus xs ys)).
  { unfold differences, minus, data. clear. revert ys. induction xs as [|x xs IH]; intros [|y ys]; cbn [map combine]; auto. cbn [fst snd]. rewrite nsub_fin. f_equal. apply IH. }
  rewrite DF in B. change [data (minus xs ys); data xs; data ds; data ys; data es] with (map data [minus xs ys; xs; ds; ys; es]) in B.
  assert (LM : List.length (minus xs ys) = List.length xs) by (unfold minus; rewrite map_length, combine_length; lia).
  apply (means_untrimmed argsort _ xs) in B; auto; [|discriminate|intros r0 [<-|[<-|[<-|[<-|[<-|[]]]]]]; auto].
  rewrite B in H. cbn [map tl] in H. unfold difference_of_ratios in H. cbn [vec nth] in H. cbv zeta in H. unfold vec in H. cbn [nth] in H.
  apply finish_test_ok in H. destruct H. rewrite fi_control, fi_abs. split; reflexivity.
Qed.

(** *** The totals behind the values *)
Definition untrimmed (q : f64) : Prop := is_finite q = true /\ B2R q = 0%R.
(** the items that are not in arm 1 *)
Definition items_outside_arm (assigned : list (string * Z)) (a : Z) : list string := map fst (filter (fun ia => negb (snd ia =? a)) assigned).

Lemma untrimmed_usable n q : untrimmed q -> (0 < n)%nat -> Z.of_nat n <= 2 ^ 53 -> usable n q.
Proof. intros [F Q] P B. split; [exact P|]. split; [exact B|]. split; [exact F|]. rewrite Q. lra. Qed.

Lemma mapM_nth {A B} (f : A -> result B) l bs j x y : mapM f l = Ok bs -> nth_error l j = Some x -> nth_error bs j = Some y -> f x = Ok y.
Proof.
  intros H. apply mapM_ok in H. revert j. induction H as [|a b l bs E _ IH]; intros [|j] X Y; try discriminate; cbn [nth_error] in *; [congruence|eauto].
Qed.

Section whole.
Variables (T : tdist) (argsort : list num -> list nat) (as_list : list string -> list string).
Variables (perf : list obs) (assigned : list (string * Z)) (d : design) (metrics : list string) (alo : list (string * string)).
Variables (start : Z) (skip : list string) (out : list erow) (wanted : list metric_spec).
Hypothesis CO : concluded perf assigned d metrics alo start skip out.
Hypothesis HL : lists_a_set as_list.
Hypothesis SO : sorts argsort.
Hypothesis HW : forall c, In c (metric_columns_of wanted) -> In c (metrics ++ map snd alo).
Hypothesis NB : Z.of_nat (List.length assigned) <= 2 ^ 53.

(** the total of one item *)
Definition item_total (c : string) (a b : Z) (i : string) : R :=
  match raw_total perf (raw_value metrics alo c) i (start + a * week_ns) (start + b * week_ns) with Fin r => r | _ => 0 end.

Lemma values_from_totals : wanted <> [] -> exists keys V,
  Permutation keys (map (fun ia : string * Z => (fst ia, [snd ia])) assigned) /\
  (forall c s a n i arm, In c (metric_columns_of wanted) -> needed (par d) s -> period_span (par d) s a n -> In (i, arm) assigned ->
     raw_total perf (raw_value metrics alo c) i (start + a * week_ns) (start + (a + n) * week_ns) = Fin (item_total c a (a + n) i) /\
     (n <> 0) /\ V c s (i, [arm]) = Fin (item_total c a (a + n) i / IZR n)) /\
  results T argsort as_list out wanted (par d) = mapM (fun m => let! r := tested T argsort (par d) keys V m in Ok (ms_name m, r)) wanted.
Proof.
  intros NW. destruct CO as [H1 H2 H3 H4 (time & H5) H6 (by_date & binom & outer & neg & H7 & H8)].
  destruct (c83_end_to_end T argsort as_list by_date binom outer perf assigned d metrics start neg alo skip out time wanted
    H7 HL H1 H2 H3 H4 H5 H6 NW HW H8) as (keys & V & A & B & F & C & D).
  exists keys, V. split; [exact B|]. split; [|unfold results; now rewrite D].
  intros c s a n i arm I N S As. assert (E := C c s a n i arm I N S As). destruct (F c s (i, [arm]) I N) as (x & X). rewrite X in E. symmetry in E.
  assert (E' := E). apply ndiv_is_fin in E as (y & Y & NZ & XY). unfold item_total. rewrite Y. split; [reflexivity|].
  split; [intros ->; now apply NZ|]. rewrite X, XY. reflexivity.
Qed.

Lemma weeks_total_fin c a b items : (forall i, In i items -> raw_total perf (raw_value metrics alo c) i (start + a * week_ns) (start + b * week_ns) = Fin (item_total c a b i)) ->
  weeks_total perf (raw_value metrics alo c) items start a b = Fin (Trimmed_Spec.total (map (item_total c a b) items)).
Proof.
  intros H. unfold weeks_total. rewrite <- nsum_Fin, map_map. f_equal. now apply map_ext_in.
Qed.

Lemma items_in_arm_in i a : In i (items_in_arm assigned a) -> In (i, a) assigned.
Proof. unfold items_in_arm. intros H. apply in_map_iff in H as ([j b] & <- & H). apply filter_In in H as [H E]. cbn in E. apply Z.eqb_eq in E. now subst. Qed.
Lemma items_outside_in i a : In i (items_outside_arm assigned a) -> exists b, In (i, b) assigned.
Proof. unfold items_outside_arm. intros H. apply in_map_iff in H as ([j b] & <- & H). apply filter_In in H as [H E]. eauto. Qed.

Lemma avg_weekly xs (f : string -> R) n items : Permutation xs (map (fun i => f i / n)%R items) ->
  avg xs = (Trimmed_Spec.total (map f items) / n / INR (List.length items))%R.
Proof.
  intros P. rewrite (avg_perm _ _ P). unfold avg. rewrite map_length. f_equal.
  assert (X := Sm_scale items (/ n)%R f). unfold Sm in X. unfold Rdiv. rewrite Rmult_comm, <- X. f_equal. apply map_ext. intros; ring.
Qed.

End whole.

Lemma scaled_zero (v w n : R) : w <> 0%R -> n <> 0%R -> (v / w / n = 0 <-> v = 0)%R.
Proof.
  intros W N. split; [intros E|intros ->; field; auto]. replace v with (v / w / n * (w * n))%R by (field; auto). rewrite E. ring.
Qed.

(** the difference of two ratios is a number exactly if both denominators are not zero *)
Lemma quotient_difference x y u v w n w' n' : w <> 0%R -> n <> 0%R -> w' <> 0%R -> n' <> 0%R ->
  let C := ndiv (Fin (u / w' / n')) (Fin (v / w' / n')) in let D := nsub (ndiv (Fin (x / w / n)) (Fin (y / w / n))) C in
  (y <> 0%R -> v <> 0%R -> D = Fin (x / y - u / v)) /\ (v <> 0%R -> C = Fin (u / v)) /\ ((exists z, D = Fin z) -> y <> 0%R /\ v <> 0%R).
Proof.
  intros W N W' N' C D. assert (Y := scaled_zero y w n W N). assert (V := scaled_zero v w' n' W' N').
  assert (EC : v <> 0%R -> C = Fin (u / v)) by (intros H; unfold C; rewrite ndiv_fin; [f_equal; field; auto|intros E; apply H, V; exact E]).
  split; [|split; [exact EC|]].
  - intros H H'. unfold D. rewrite (EC H'), ndiv_fin by (intros E; apply H, Y; exact E). rewrite nsub_fin. f_equal. field. auto.
  - intros (z & E). unfold D, nsub in E. apply nadd_is_fin in E as (a & b & E1 & E2 & _). destruct C as [k| | |] eqn:EC2; try discriminate. clear E2. assert (E2 := EC2).
    apply ndiv_is_fin in E1 as (_ & _ & N1 & _). unfold C in E2. apply ndiv_is_fin in E2 as (_ & _ & N2 & _). tauto.
Qed.

(** *** Regular experiments *)
Section regular.
Variables (T : tdist) (argsort : list num -> list nat) (as_list : list string -> list string).
Variables (perf : list obs) (assigned : list (string * Z)) (d : design) (metrics : list string) (alo : list (string * string)).
Variables (start : Z) (skip : list string) (out : list erow) (wanted : list metric_spec).
Hypothesis CO : concluded perf assigned d metrics alo start skip out.
Hypothesis HL : lists_a_set as_list.
Hypothesis SO : sorts argsort.
Hypothesis HW : forall c, In c (metric_columns_of wanted) -> In c (metrics ++ map snd alo).
Hypothesis NB : Z.of_nat (List.length assigned) <= 2 ^ 53.
Hypothesis C : crossover (par d) = false.
Hypothesis PT : pretest (par d) = 0.
Variables (res : list (string * tresult)) (j : nat) (m : metric_spec) (name : string) (r : tresult).
Hypothesis OK : results T argsort as_list out wanted (par d) = Ok res.
Hypothesis NM : nth_error wanted j = Some m.
Hypothesis NR : nth_error res j = Some (name, r).
Hypothesis UQ : untrimmed (quantile_of (par d) m).

Notation sum c a := (weeks_total perf (raw_value metrics alo c) (items_in_arm assigned a) start 0 (runtime (par d))).
Notation tot c a := (Trimmed_Spec.total (map (item_total perf metrics alo start c 0 (runtime (par d))) (items_in_arm assigned a))).
Notation weeks := (IZR (runtime (par d))).
Notation size a := (INR (List.length (items_in_arm assigned a))).

Lemma regular_data :
  (forall c a, In c (metric_columns_of wanted) -> sum c a = Fin (tot c a)) /\ weeks <> 0%R /\ size 1 <> 0%R /\ size 0 <> 0%R /\ name = ms_name m /\
  exists X : string -> Z -> list R,
    (forall c a, In c (metric_columns_of wanted) -> avg (X c a) = (tot c a / weeks / size a)%R /\ List.length (X c a) = List.length (items_in_arm assigned a)) /\
    (forall c, In c (metric_columns_of wanted) -> sample (X c 1) /\ sample (X c 0)) /\
    match ms_denominator m with
    | None => yuens_t_test_ind T argsort (data (X (ms_column m) 1)) (data (X (ms_column m) 0)) (quantile_of (par d) m) None None false "two-sided" (rnd (5 / 100)) = Ok r
    | Some c => yuens_t_test_ind T argsort (data (X (ms_column m) 1)) (data (X (ms_column m) 0)) (quantile_of (par d) m)
        (Some (data (X c 1))) (Some (data (X c 0))) false "two-sided" (rnd (5 / 100)) = Ok r
    end.
Proof.
  assert (Im : In m wanted) by (eapply nth_error_In; eauto). assert (NW : wanted <> []) by (destruct wanted; [destruct Im|discriminate]).
  destruct (values_from_totals T argsort as_list perf assigned d metrics alo start skip out wanted CO HL HW NW) as (keys & V & PK & EV & E).
  rewrite E in OK. assert (R := mapM_nth _ _ _ _ _ _ OK NM NR). cbn beta in R. apply bind_ok in R as (r' & R & R'). assert (name = ms_name m /\ r' = r) as [-> ->] by (split; congruence).
  clear R'. assert (ND : needed (par d) "test") by (unfold needed; rewrite C; now left).
  assert (SP : period_span (par d) "test" 0 (runtime (par d))) by (unfold period_span; rewrite C; now left).
  assert (AN : assigned <> []) by exact (assigned_nonempty _ _ _ _ _ _ _ _ CO).
  assert (LK : List.length keys = List.length assigned) by (rewrite (Permutation_length PK); apply map_length).
  assert (U : usable (List.length keys) (quantile_of (par d) m)).
  { apply untrimmed_usable; auto; rewrite LK; [destruct assigned; [congruence|cbn; lia]|exact NB]. }
  assert (AU : arm_used assigned 1 /\ arm_used assigned 0).
  { destruct (regular_metric T argsort (par d) keys V m SO C U) as [_ X]. rewrite !(listed_used keys assigned _ PK) in X.
    destruct (arm_used_dec assigned 1), (arm_used_dec assigned 0); auto; rewrite X in R by auto; discriminate. }
  assert (EV0 := fun c i arm Hc Ha => EV c "test" 0 (runtime (par d)) i arm Hc ND SP Ha). rewrite Z.add_0_l in EV0.
  assert (LP : forall a, arm_used assigned a -> (0 < List.length (items_in_arm assigned a))%nat).
  { intros a (i & I). destruct (items_in_arm assigned a) eqn:EA; [|cbn; lia]. exfalso.
    assert (X : In i (items_in_arm assigned a)) by (unfold items_in_arm; apply in_map_iff; exists (i, a); split; [reflexivity|]; apply filter_In; split; [exact I|apply Z.eqb_refl]).
    rewrite EA in X. destruct X. }
  assert (LE : forall a, Z.of_nat (List.length (items_in_arm assigned a)) <= 2 ^ 53).
  { intros a. unfold items_in_arm. rewrite map_length. assert (X := Rank.filter_length_le (fun ia : string * Z => snd ia =? a) assigned). lia. }
  destruct AU as [A1 A0]. assert (L1 := LP 1 A1). assert (L0 := LP 0 A0).
  split. { intros c a Hc. apply weeks_total_fin. intros i Hi. apply items_in_arm_in in Hi. exact (proj1 (EV0 c i a Hc Hi)). }
  split. { destruct A1 as (i & I). apply not_0_IZR. exact (proj1 (proj2 (EV0 (ms_column m) i 1 (wanted_column wanted m _ Im (or_introl eq_refl)) I))). }
  split; [apply not_0_INR; lia|]. split; [apply not_0_INR; lia|]. split; [reflexivity|].
  assert (XX : forall c, In c (metric_columns_of wanted) -> forall a, exists xs, of_arm keys a (map (V c "test") keys) = data xs /\
     Permutation xs (map (fun i => item_total perf metrics alo start c 0 (runtime (par d)) i / weeks)%R (items_in_arm assigned a))).
  { intros c Hc a. apply (of_arm_values assigned keys (V c "test")); auto. intros i b I. exact (proj2 (proj2 (EV0 c i b Hc I))). }
  exists (fun c a => map (fun x => match x with Fin z => z | _ => 0%R end) (of_arm keys a (map (V c "test") keys))).
  assert (UN : forall xs, map (fun x => match x with Fin z => z | _ => 0%R end) (data xs) = xs).
  { intros xs. unfold data. rewrite map_map. apply map_id. }
  split; [|split].
  - intros c a Hc. destruct (XX c Hc a) as (xs & EX & PX). rewrite EX, UN. split; [now apply avg_weekly|]. rewrite (Permutation_length PX). apply map_length.
  - intros c Hc. assert (S : forall a, arm_used assigned a -> sample (map (fun x => match x with Fin z => z | _ => 0%R end) (of_arm keys a (map (V c "test") keys)))).
    { intros a Ha. destruct (XX c Hc a) as (xs & EX & PX). rewrite EX, UN. assert (LX := Permutation_length PX). rewrite map_length in LX.
      split; [|rewrite LX; apply LE]. intros ->. specialize (LP a Ha). cbn in LX. lia. }
    split; apply S; auto.
  - assert (Hm := wanted_column wanted m _ Im (or_introl eq_refl)). unfold tested in R. cbv zeta in R. rewrite C, PT in R. cbn [Z.ltb Z.compare bind] in R.
    fold (quantile_of (par d) m) in R.
    destruct (XX _ Hm 1) as (x1 & EX1 & _). destruct (XX _ Hm 0) as (x0 & EX0 & _). rewrite EX1, EX0, !UN.
    destruct (ms_denominator m) as [c|] eqn:EM.
    + assert (Hc := wanted_column wanted m _ Im (or_intror EM)).
      destruct (XX _ Hc 1) as (y1 & EY1 & _). destruct (XX _ Hc 0) as (y0 & EY0 & _). rewrite EY1, EY0, !UN. cbn [bind] in R.
      change (yuens_t_test_ind T argsort (of_arm keys 1 (map (V (ms_column m) "test") keys)) (of_arm keys 0 (map (V (ms_column m) "test") keys)) (quantile_of (par d) m)
        (Some (of_arm keys 1 (map (V c "test") keys))) (Some (of_arm keys 0 (map (V c "test") keys))) false "two-sided" (rnd (5 / 100)) = Ok r) in R.
      rewrite EX1, EX0, EY1, EY0 in R. exact R.
    + change (yuens_t_test_ind T argsort (of_arm keys 1 (map (V (ms_column m) "test") keys)) (of_arm keys 0 (map (V (ms_column m) "test") keys)) (quantile_of (par d) m)
        None None false "two-sided" (rnd (5 / 100)) = Ok r) in R.
      rewrite EX1, EX0 in R. exact R.
Qed.
End regular.

(** the estimate of a ratio metric in a regular experiment without pretest weeks is the difference of
    the ratios of the totals of the arms, and it is a number exactly if neither denominator totals zero *)
Theorem c102_regular_ratios_are_of_totals :
  forall T argsort as_list perf assigned d metrics alo start skip out wanted res j m c name r,
    concluded perf assigned d metrics alo start skip out -> lists_a_set as_list -> sorts argsort ->
    (forall c, In c (metric_columns_of wanted) -> In c (metrics ++ map snd alo)) ->
    Z.of_nat (List.length assigned) <= 2 ^ 53 -> crossover (par d) = false -> pretest (par d) = 0 ->
    results T argsort as_list out wanted (par d) = Ok res ->
    nth_error wanted j = Some m -> nth_error res j = Some (name, r) -> ms_denominator m = Some c -> untrimmed (quantile_of (par d) m) ->
    let sum column arm := weeks_total perf (raw_value metrics alo column) (items_in_arm assigned arm) start 0 (runtime (par d)) in
    exists n1 d1 n0 d0,
      sum (ms_column m) 1 = Fin n1 /\ sum c 1 = Fin d1 /\ sum (ms_column m) 0 = Fin n0 /\ sum c 0 = Fin d0 /\
      (d1 <> 0%R -> d0 <> 0%R -> r_abs r = Fin (n1 / d1 - n0 / d0)) /\
      (d0 <> 0%R -> r_control_average r = Fin (n0 / d0)) /\
      ((exists x, r_abs r = Fin x) -> d1 <> 0%R /\ d0 <> 0%R).
Proof.
  intros T argsort as_list perf assigned d metrics alo start skip out wanted res j m c name r CO HL SO HW NB C PT OK NM NR EM UQ sum.
  destruct (regular_data T argsort as_list perf assigned d metrics alo start skip out wanted CO HL SO HW NB C PT res j m name r OK NM NR UQ)
    as (SU & W & S1 & S0 & _ & X & AV & SA & TE). rewrite EM in TE.
  assert (Im : In m wanted) by (eapply nth_error_In; eauto).
  assert (Hm := wanted_column wanted m _ Im (or_introl eq_refl)). assert (Hc := wanted_column wanted m _ Im (or_intror EM)).
  do 4 eexists. split; [exact (SU _ 1 Hm)|]. split; [exact (SU _ 1 Hc)|]. split; [exact (SU _ 0 Hm)|]. split; [exact (SU _ 0 Hc)|].
  destruct (SA _ Hm) as [Sx Sy].
  destruct (ind_ratio_untrimmed T argsort _ _ _ _ _ _ _ _ _ SO (proj2 UQ) Sx Sy TE) as [EC ED];
    [rewrite (proj2 (AV c 1 Hc)), (proj2 (AV _ 1 Hm)); reflexivity|rewrite (proj2 (AV c 0 Hc)), (proj2 (AV _ 0 Hm)); reflexivity|].
  rewrite (proj1 (AV _ 1 Hm)), (proj1 (AV _ 1 Hc)), (proj1 (AV _ 0 Hm)), (proj1 (AV _ 0 Hc)) in *.
  rewrite EC, ED. now apply quotient_difference.
Qed.

(** in contrast the estimate of a plain metric depends on the number of items and of weeks *)
Theorem c102_regular_metrics_are_per_item_and_week :
  forall T argsort as_list perf assigned d metrics alo start skip out wanted res j m name r,
    concluded perf assigned d metrics alo start skip out -> lists_a_set as_list -> sorts argsort ->
    (forall c, In c (metric_columns_of wanted) -> In c (metrics ++ map snd alo)) ->
    Z.of_nat (List.length assigned) <= 2 ^ 53 -> crossover (par d) = false -> pretest (par d) = 0 ->
    results T argsort as_list out wanted (par d) = Ok res ->
    nth_error wanted j = Some m -> nth_error res j = Some (name, r) -> ms_denominator m = None -> untrimmed (quantile_of (par d) m) ->
    let sum arm := weeks_total perf (raw_value metrics alo (ms_column m)) (items_in_arm assigned arm) start 0 (runtime (par d)) in
    let per_item_and_week arm n := (n / IZR (runtime (par d)) / INR (List.length (items_in_arm assigned arm)))%R in
    exists n1 n0, sum 1 = Fin n1 /\ sum 0 = Fin n0 /\
      r_abs r = Fin (per_item_and_week 1 n1 - per_item_and_week 0 n0) /\ r_control_average r = Fin (per_item_and_week 0 n0).
Proof.
  intros T argsort as_list perf assigned d metrics alo start skip out wanted res j m name r CO HL SO HW NB C PT OK NM NR EM UQ sum per.
  destruct (regular_data T argsort as_list perf assigned d metrics alo start skip out wanted CO HL SO HW NB C PT res j m name r OK NM NR UQ)
    as (SU & W & S1 & S0 & _ & X & AV & SA & TE). rewrite EM in TE.
  assert (Im : In m wanted) by (eapply nth_error_In; eauto). assert (Hm := wanted_column wanted m _ Im (or_introl eq_refl)).
  do 2 eexists. split; [exact (SU _ 1 Hm)|]. split; [exact (SU _ 0 Hm)|]. destruct (SA _ Hm) as [Sx Sy].
  destruct (ind_plain_untrimmed T argsort _ _ _ _ _ _ _ SO (proj2 UQ) Sx Sy TE) as [EC ED].
  rewrite (proj1 (AV _ 1 Hm)), (proj1 (AV _ 0 Hm)) in *. auto.
Qed.

(** *** Crossover experiments *)
Lemma split_by_arm (u v : string -> R) (assigned : list (string * Z)) :
  Trimmed_Spec.total (map (fun ia => if snd ia =? 1 then u (fst ia) else v (fst ia)) assigned) =
  (Trimmed_Spec.total (map u (items_in_arm assigned 1)) + Trimmed_Spec.total (map v (items_outside_arm assigned 1)))%R.
Proof.
  unfold items_in_arm, items_outside_arm, Trimmed_Spec.total. induction assigned as [|[i a] l IH]; [cbn; ring|].
  cbn [map filter fold_right fst snd]. rewrite IH. destruct (a =? 1); cbn [negb map fold_right fst snd]; ring.
Qed.
Lemma split_sizes (assigned : list (string * Z)) :
  (List.length (items_in_arm assigned 1) + List.length (items_outside_arm assigned 1))%nat = List.length assigned.
Proof.
  unfold items_in_arm, items_outside_arm. rewrite !map_length. induction assigned as [|[i a] l IH]; [reflexivity|]. cbn [filter snd]. destruct (a =? 1); cbn [negb List.length]; lia.
Qed.

Lemma in_treatment_arm_1 k : in_treatment_arm (Some k) = (k =? 1).
Proof. destruct k as [|[| |]|]; reflexivity. Qed.

(** the average of the aligned values while treated *)
Lemma avg_aligned l tr co : l <> [] -> List.length tr = List.length l -> List.length co = List.length l -> avg co = avg (map while_control l) ->
  minus tr co = map (fun c => signed c ((x_one c - avg (ones l)) - (x_two c - avg (twos l))))%R l ->
  avg tr = (avg (map while_treated l) - (2 * share_first l - 1) * (avg (ones l) - avg (twos l)))%R.
Proof.
  intros N L1 L2 EC EM.
  assert (D : avg (minus tr co) = (avg tr - avg co)%R).
  { unfold minus. rewrite <- L2 in L1. assert (L3 : List.length (map (fun p : R * R => (fst p - snd p)%R) (combine tr co)) = List.length tr) by (rewrite map_length, combine_length; lia).
    unfold avg. rewrite L3, <- L1. unfold Rdiv. rewrite <- Rmult_minus_distr_r. f_equal. clear - L1. revert co L1. unfold Trimmed_Spec.total.
    induction tr as [|x tr IH]; intros [|y co] L; try discriminate; cbn [combine map fold_right fst snd]; [ring|]. rewrite (IH co) by (cbn in L; lia). ring. }
  assert (E : avg (map (fun c => signed c ((x_one c - avg (ones l)) - (x_two c - avg (twos l))))%R l) =
    (avg (map while_treated l) - avg (map while_control l) - (2 * share_first l - 1) * (avg (ones l) - avg (twos l)))%R).
  { set (k := (avg (ones l) - avg (twos l))%R).
    assert (SG : avg (map (fun c => signed c 1) l) = (2 * share_first l - 1)%R).
    { unfold avg, share_first. rewrite map_length. assert (NL : INR (List.length l) <> 0%R) by (apply not_0_INR; destruct l; [congruence|cbn; lia]).
      replace (2 * (INR (List.length (filter (fun c => in_treatment_arm (x_arm c)) l)) / INR (List.length l)) - 1)%R
        with ((2 * INR (List.length (filter (fun c => in_treatment_arm (x_arm c)) l)) - INR (List.length l)) / INR (List.length l))%R by (field; auto).
      f_equal. clear. unfold Trimmed_Spec.total. induction l as [|c l IH]; [cbn; ring|]. cbn [map fold_right filter]. rewrite IH. unfold signed.
      destruct (in_treatment_arm (x_arm c)); cbn [List.length]; rewrite ?S_INR; ring. }
    rewrite <- SG. change (Av l (fun c => signed c ((x_one c - avg (ones l)) - (x_two c - avg (twos l))))%R = (Av l while_treated - Av l while_control - Av l (fun c => signed c 1) * k)%R).
    rewrite !Av_S.
    assert (ES : Sm l (fun c => signed c ((x_one c - avg (ones l)) - (x_two c - avg (twos l))))%R =
      (Sm l while_treated - Sm l while_control - k * Sm l (fun c => signed c 1))%R).
    { rewrite <- Sm_scale, <- !Sm_minus. apply Sm_ext. intros c _. unfold signed, while_treated, while_control, k. destruct (in_treatment_arm (x_arm c)); ring. }
    rewrite ES. unfold Rdiv. ring. }
  rewrite EM, E in D. rewrite EC in D. lra.
Qed.

(** the total while treated after the alignment of the two periods: [a] and [b] are the totals of the items
    treated first in the first and in the second period, [p] and [q] those of the items treated second, [e]
    is the surplus of items treated first, as a share of all items *)
Definition aligned (e a b p q : R) : R := (a + q - e * ((a + p) - (b + q)))%R.

Section crossed.
Variables (T : tdist) (argsort : list num -> list nat) (as_list : list string -> list string).
Variables (perf : list obs) (assigned : list (string * Z)) (d : design) (metrics : list string) (alo : list (string * string)).
Variables (start : Z) (skip : list string) (out : list erow) (wanted : list metric_spec).
Hypothesis CO : concluded perf assigned d metrics alo start skip out.
Hypothesis HL : lists_a_set as_list.
Hypothesis SO : sorts argsort.
Hypothesis HW : forall c, In c (metric_columns_of wanted) -> In c (metrics ++ map snd alo).
Hypothesis NB : Z.of_nat (List.length assigned) <= 2 ^ 53.
Hypothesis C : crossover (par d) = true.
Variable w : Z.
Hypothesis WO : washout (par d) = Some w.
Variables (res : list (string * tresult)) (j : nat) (m : metric_spec) (name : string) (r : tresult).
Hypothesis OK : results T argsort as_list out wanted (par d) = Ok res.
Hypothesis NM : nth_error wanted j = Some m.
Hypothesis NR : nth_error res j = Some (name, r).
Hypothesis UQ : untrimmed (quantile_of (par d) m).

Notation h := (runtime (par d) / 2).
Notation first := (items_in_arm assigned 1).
Notation second := (items_outside_arm assigned 1).
Notation tot c a b l := (Trimmed_Spec.total (map (item_total perf metrics alo start c a b) l)).
Notation sum c a b l := (weeks_total perf (raw_value metrics alo c) l start a b).
Notation weeks := (IZR (h - w)).
Notation size := (INR (List.length assigned)).
Definition surplus : R := ((INR (List.length first) - INR (List.length second)) / size)%R.

Lemma crossed_data :
  (forall c l, In c (metric_columns_of wanted) -> l = first \/ l = second ->
     sum c w h l = Fin (tot c w h l) /\ sum c (h + w) (2 * h) l = Fin (tot c (h + w) (2 * h) l)) /\
  weeks <> 0%R /\ size <> 0%R /\
  exists TR CN : string -> list R,
    (forall c, In c (metric_columns_of wanted) -> List.length (TR c) = List.length assigned /\ List.length (CN c) = List.length assigned /\
      avg (CN c) = ((tot c (h + w) (2 * h) first + tot c w h second) / weeks / size)%R /\
      avg (TR c) = (aligned surplus (tot c w h first) (tot c (h + w) (2 * h) first) (tot c w h second) (tot c (h + w) (2 * h) second) / weeks / size)%R) /\
    forall c, ms_denominator m = Some c ->
      yuens_t_test_paired T argsort (data (TR (ms_column m))) (data (CN (ms_column m))) (quantile_of (par d) m)
        (Some (data (TR c))) (Some (data (CN c))) "two-sided" (rnd (5 / 100)) = Ok r.
Proof.
  assert (Im : In m wanted) by (eapply nth_error_In; eauto). assert (NW : wanted <> []) by (destruct wanted; [destruct Im|discriminate]).
  destruct (values_from_totals T argsort as_list perf assigned d metrics alo start skip out wanted CO HL HW NW) as (keys & V & PK & EV & E).
  rewrite E in OK. assert (RT := mapM_nth _ _ _ _ _ _ OK NM NR). cbn beta in RT. apply bind_ok in RT as (r' & RT & R'). assert (r' = r) as -> by congruence. clear R'.
  assert (N1 : needed (par d) "test_1") by (unfold needed; rewrite C; now left).
  assert (N2 : needed (par d) "test_2") by (unfold needed; rewrite C; now right).
  assert (P1 : period_span (par d) "test_1" w (h - w)) by (unfold period_span; rewrite C; exists w; auto).
  assert (P2 : period_span (par d) "test_2" (h + w) (h - w)) by (unfold period_span; rewrite C; exists w; auto).
  assert (AN : assigned <> []) by exact (assigned_nonempty _ _ _ _ _ _ _ _ CO).
  assert (EV1 := fun c i arm Hc Ha => EV c "test_1" w (h - w) i arm Hc N1 P1 Ha). replace (w + (h - w)) with h in EV1 by ring.
  assert (EV2 := fun c i arm Hc Ha => EV c "test_2" (h + w) (h - w) i arm Hc N2 P2 Ha). replace (h + w + (h - w)) with (2 * h) in EV2 by ring.
  assert (Hm := wanted_column wanted m _ Im (or_introl eq_refl)).
  assert (NWK : weeks <> 0%R).
  { destruct assigned as [|[i a] rest]; [congruence|]. apply not_0_IZR. exact (proj1 (proj2 (EV1 (ms_column m) i a Hm (or_introl eq_refl)))). }
  assert (NS : size <> 0%R) by (apply not_0_INR; destruct assigned; [congruence|cbn; lia]).
  split. { intros c l Hc Hl. assert (HI : forall i, In i l -> exists a, In (i, a) assigned).
    { intros i Hi. destruct Hl as [-> | ->]; [exists 1; now apply items_in_arm_in|now apply items_outside_in in Hi]. }
    split; apply weeks_total_fin; intros i Hi; destruct (HI i Hi) as (a & Ha); [exact (proj1 (EV1 c i a Hc Ha))|exact (proj1 (EV2 c i a Hc Ha))]. }
  split; [exact NWK|]. split; [exact NS|].
  set (g1 := fun c i => (item_total perf metrics alo start c w h i / weeks)%R). set (g2 := fun c i => (item_total perf metrics alo start c (h + w) (2 * h) i / weeks)%R).
  set (lk := fun c => map (fun k : akey => mkX (recorded_arm k) (g1 c (fst k)) (g2 c (fst k))) keys).
  set (la := fun c => map (fun ia : string * Z => mkX (Some (snd ia)) (g1 c (fst ia)) (g2 c (fst ia))) assigned).
  assert (PL : forall c, Permutation (lk c) (la c)).
  { intros c. unfold lk, la. apply (Permutation_map (fun k : akey => mkX (recorded_arm k) (g1 c (fst k)) (g2 c (fst k)))) in PK. rewrite map_map in PK. exact PK. }
  assert (LK : List.length keys = List.length assigned) by (rewrite (Permutation_length PK); apply map_length).
  assert (LN : forall c, lk c <> []) by (intros c X; apply map_eq_nil in X; rewrite X in LK; destruct assigned; [congruence|discriminate]).
  assert (LL : forall c, List.length (lk c) = List.length assigned) by (intros c; unfold lk; now rewrite map_length).
  assert (ZQ : is_zero (quantile_of (par d) m) = true) by (apply is_zero_iff; apply UQ).
  assert (PC : forall c, exists yy : list R * list R, In c (metric_columns_of wanted) ->
    prepare_crossover (map (V c "test_1") keys) (map (V c "test_2") keys) (map recorded_arm keys) true = (data (fst yy), data (snd yy)) /\
    List.length (fst yy) = List.length assigned /\ List.length (snd yy) = List.length assigned /\
      avg (snd yy) = ((tot c (h + w) (2 * h) first + tot c w h second) / weeks / size)%R /\
      avg (fst yy) = (aligned surplus (tot c w h first) (tot c (h + w) (2 * h) first) (tot c w h second) (tot c (h + w) (2 * h) second) / weeks / size)%R).
  { intros c. destruct (c62_demeaned (lk c) (LN c)) as (tr & co & EP & L1 & L2 & AC & AM).
    exists (tr, co). intros Hc. cbn [fst snd].
    assert (HK : forall k, In k keys -> V c "test_1" k = Fin (g1 c (fst k)) /\ V c "test_2" k = Fin (g2 c (fst k))).
    { intros k Hk. apply (Permutation_in k PK) in Hk. apply in_map_iff in Hk as ([i b] & <- & I).
      split; [exact (proj2 (proj2 (EV1 c i b Hc I)))|exact (proj2 (proj2 (EV2 c i b Hc I)))]. }
    split.
    { rewrite <- EP. unfold lk. rewrite !map_map. cbn [finite x_one x_two x_arm]. f_equal; apply map_ext_in; intros k Hk; apply (HK k Hk). }
    rewrite LL in L1, L2. split; [exact L1|]. split; [exact L2|].
    assert (TOTS : forall (u v : string -> R), avg (map (fun ia : string * Z => if snd ia =? 1 then u (fst ia) / weeks else v (fst ia) / weeks)%R assigned) =
       ((Trimmed_Spec.total (map u first) + Trimmed_Spec.total (map v second)) / weeks / size)%R).
    { intros u v. unfold avg. rewrite map_length. f_equal. assert (X := split_by_arm (fun i => u i / weeks)%R (fun i => v i / weeks)%R assigned). cbv beta in X. rewrite X.
      assert (SC : forall f l, Trimmed_Spec.total (map (fun i : string => f i / weeks)%R l) = (Trimmed_Spec.total (map f l) / weeks)%R).
      { intros f l. assert (Y := Sm_scale l (/ weeks)%R f). unfold Sm in Y. unfold Rdiv. rewrite Rmult_comm, <- Y. f_equal. apply map_ext. intros; ring. }
      rewrite !SC. unfold Rdiv. ring. }
    assert (AVG : forall (f : cross R -> R) u v, (forall ia : string * Z, f (mkX (Some (snd ia)) (g1 c (fst ia)) (g2 c (fst ia))) = if snd ia =? 1 then u (fst ia) / weeks else v (fst ia) / weeks)%R ->
       avg (map f (lk c)) = ((Trimmed_Spec.total (map u first) + Trimmed_Spec.total (map v second)) / weeks / size)%R).
    { intros f u v F. rewrite (avg_perm _ _ (Permutation_map f (PL c))). unfold la. rewrite map_map, <- TOTS. f_equal. apply map_ext. exact F. }
    assert (CNT : avg (map while_control (lk c)) = ((tot c (h + w) (2 * h) first + tot c w h second) / weeks / size)%R).
    { apply AVG. intros [i a]. unfold while_control. cbn [x_arm x_one x_two fst snd]. rewrite in_treatment_arm_1. reflexivity. }
    split; [congruence|].
    rewrite (avg_aligned (lk c) tr co (LN c) ltac:(rewrite LL; exact L1) ltac:(rewrite LL; exact L2) AC AM).
    assert (TRT : avg (map while_treated (lk c)) = ((tot c w h first + tot c (h + w) (2 * h) second) / weeks / size)%R).
    { apply AVG. intros [i a]. unfold while_treated. cbn [x_arm x_one x_two fst snd]. rewrite in_treatment_arm_1. reflexivity. }
    assert (ONE : avg (ones (lk c)) = ((tot c w h first + tot c w h second) / weeks / size)%R).
    { apply AVG. intros [i a]. cbn [x_one fst snd]. destruct (a =? 1); reflexivity. }
    assert (TWO : avg (twos (lk c)) = ((tot c (h + w) (2 * h) first + tot c (h + w) (2 * h) second) / weeks / size)%R).
    { apply AVG. intros [i a]. cbn [x_two fst snd]. destruct (a =? 1); reflexivity. }
    assert (SHR : (2 * share_first (lk c) - 1)%R = surplus).
    { unfold share_first, surplus. rewrite LL.
      assert (CF : List.length (filter (fun c0 => in_treatment_arm (x_arm c0)) (lk c)) = List.length first).
      { assert (Q : Permutation (filter (fun c0 : cross R => in_treatment_arm (x_arm c0)) (lk c)) (filter (fun c0 => in_treatment_arm (x_arm c0)) (la c))).
        { assert (X := PL c). clear - X. induction X; cbn [filter]; repeat (match goal with |- context [if ?b then _ else _] => destruct b end); auto using perm_swap. eapply perm_trans; eauto. }
        rewrite (Permutation_length Q). unfold la, items_in_arm. rewrite map_length. clear. induction assigned as [|[i a] l IH]; [reflexivity|].
        cbn [map filter x_arm snd]. rewrite in_treatment_arm_1. destruct (a =? 1); cbn [List.length]; congruence. }
      rewrite CF. assert (SZ := split_sizes assigned). apply (f_equal INR) in SZ. rewrite plus_INR in SZ. replace (INR (List.length second)) with (size - INR (List.length first))%R by lra. field. exact NS. }
    rewrite TRT, ONE, TWO, SHR. unfold aligned. field. auto. }
  assert (CH : exists Y : string -> list R * list R, forall c, In c (metric_columns_of wanted) ->
    prepare_crossover (map (V c "test_1") keys) (map (V c "test_2") keys) (map recorded_arm keys) true = (data (fst (Y c)), data (snd (Y c)))).
  { exists (fun c => let y := prepare_crossover (map (V c "test_1") keys) (map (V c "test_2") keys) (map recorded_arm keys) true in
      let un := map (fun x => match x with Fin z => z | _ => 0%R end) in (un (fst y), un (snd y))).
    intros c Hc. destruct (PC c) as (yy & X). destruct (X Hc) as (X' & _). cbv zeta. rewrite X'. cbn [fst snd]. unfold data. rewrite !map_map. reflexivity. }
  destruct CH as (Y & HY). exists (fun c => fst (Y c)), (fun c => snd (Y c)).
  assert (INJ : forall x y, data x = data y -> x = y).
  { unfold data. induction x as [|u x IH]; intros [|v y] EE; try discriminate; auto. simpl in EE. inversion EE. f_equal; auto. }
  split.
  - intros c Hc. destruct (PC c) as ([y1 y2] & X). destruct (X Hc) as (X' & X''). cbn [fst snd] in *. rewrite (HY c Hc) in X'.
    assert (fst (Y c) = y1) by (apply INJ; congruence). assert (snd (Y c) = y2) by (apply INJ; congruence). subst y1 y2. exact X''.
  - intros c EM. assert (Hc := wanted_column wanted m _ Im (or_intror EM)).
    unfold tested in RT. cbv zeta in RT. rewrite C, EM in RT. fold (quantile_of (par d) m) in RT. rewrite ZQ in RT.
    assert (Y1 := HY _ Hm). assert (Y2 := HY _ Hc). unfold akey in *.
    rewrite Y1, Y2 in RT. exact RT.
Qed.
End crossed.

(** the estimate of a ratio metric in a crossover experiment: ratio of the (aligned) totals while treated
    minus ratio of the totals while not treated *)
Theorem c102_crossover_ratios_are_of_totals :
  forall T argsort as_list perf assigned d metrics alo start skip out wanted w res j m c name r,
    concluded perf assigned d metrics alo start skip out -> lists_a_set as_list -> sorts argsort ->
    (forall c, In c (metric_columns_of wanted) -> In c (metrics ++ map snd alo)) ->
    Z.of_nat (List.length assigned) <= 2 ^ 53 -> crossover (par d) = true -> washout (par d) = Some w ->
    results T argsort as_list out wanted (par d) = Ok res ->
    nth_error wanted j = Some m -> nth_error res j = Some (name, r) -> ms_denominator m = Some c -> untrimmed (quantile_of (par d) m) ->
    let h := runtime (par d) / 2 in let first := items_in_arm assigned 1 in let second := items_outside_arm assigned 1 in
    let one column l := weeks_total perf (raw_value metrics alo column) l start w h in
    let two column l := weeks_total perf (raw_value metrics alo column) l start (h + w) (2 * h) in
    let e := ((INR (List.length first) - INR (List.length second)) / INR (List.length assigned))%R in
    exists a b p q a' b' p' q',
      one (ms_column m) first = Fin a /\ two (ms_column m) first = Fin b /\ one (ms_column m) second = Fin p /\ two (ms_column m) second = Fin q /\
      one c first = Fin a' /\ two c first = Fin b' /\ one c second = Fin p' /\ two c second = Fin q' /\
      let treated := aligned e a b p q in let treated' := aligned e a' b' p' q' in
      (treated' <> 0%R -> (b' + p')%R <> 0%R -> r_abs r = Fin (treated / treated' - (b + p) / (b' + p'))) /\
      ((b' + p')%R <> 0%R -> r_control_average r = Fin ((b + p) / (b' + p'))) /\
      ((exists x, r_abs r = Fin x) -> treated' <> 0%R /\ (b' + p')%R <> 0%R) /\
      (List.length first = List.length second -> treated = (a + q)%R /\ treated' = (a' + q')%R).
Proof.
  intros T argsort as_list perf assigned d metrics alo start skip out wanted w res j m c name r CO HL SO HW NB C WO OK NM NR EM UQ h first second one two e.
  destruct (crossed_data T argsort as_list perf assigned d metrics alo start skip out wanted CO HL HW NB C w WO res j m name r OK NM NR UQ)
    as (SU & W & S & TR & CN & AV & TE). specialize (TE c EM).
  assert (Im : In m wanted) by (eapply nth_error_In; eauto).
  assert (Hm := wanted_column wanted m _ Im (or_introl eq_refl)). assert (Hc := wanted_column wanted m _ Im (or_intror EM)).
  do 8 eexists. split; [exact (proj1 (SU _ _ Hm (or_introl eq_refl)))|]. split; [exact (proj2 (SU _ _ Hm (or_introl eq_refl)))|].
  split; [exact (proj1 (SU _ _ Hm (or_intror eq_refl)))|]. split; [exact (proj2 (SU _ _ Hm (or_intror eq_refl)))|].
  split; [exact (proj1 (SU _ _ Hc (or_introl eq_refl)))|]. split; [exact (proj2 (SU _ _ Hc (or_introl eq_refl)))|].
  split; [exact (proj1 (SU _ _ Hc (or_intror eq_refl)))|]. split; [exact (proj2 (SU _ _ Hc (or_intror eq_refl)))|]. cbv zeta.
  destruct (AV _ Hm) as (L1 & L2 & A2 & A1). destruct (AV _ Hc) as (L3 & L4 & A4 & A3).
  assert (Sx : sample (TR (ms_column m))).
  { split; [|rewrite L1; exact NB]. intros X. rewrite X in L1. apply S. rewrite <- L1. reflexivity. }
  destruct (paired_ratio_untrimmed T argsort _ _ _ _ _ _ _ _ SO (proj2 UQ) Sx TE) as [EC ED]; [congruence..|].
  rewrite A1, A2, A3, A4 in *. rewrite EC, ED. unfold surplus.
  fold first second. fold e.
  match goal with |- context [nsub (ndiv (Fin (?x / _ / _)) (Fin (?y / _ / _))) (ndiv (Fin (?u / _ / _)) (Fin (?v / _ / _)))] =>
    destruct (quotient_difference x y u v _ _ _ _ W S W S) as (Q1 & Q2 & Q3) end.
  split; [exact Q1|]. split; [exact Q2|]. split; [exact Q3|].
  intros EL. assert (E0 : e = 0%R) by (unfold e; rewrite EL; unfold Rdiv; ring). unfold aligned. rewrite E0. split; ring.
Qed.

Print Assumptions c102_regular_ratios_are_of_totals.
Print Assumptions c102_regular_metrics_are_per_item_and_week.
Print Assumptions c102_crossover_ratios_are_of_totals.
