(** C93: the analyzer notebook: the form, the analysis of the prepared data and the figures. *)
From Coq Require Import ZArith Reals Lra Lia List String Ascii Bool Permutation Sorting.Sorted.
From Flocq Require Import Core BinarySingleNaN.
Require Verif.Bars_Model Verif.Bars_Props Verif.Overtime_Model Verif.Overtime_Props Verif.Cupedplot_Model Verif.Cupedplot_Props.
Require Import Verif.Base Verif.Num Verif.NumOrd Verif.F64 Verif.Frame Verif.ListLib Verif.Design_Model Verif.Design_Spec Verif.Design_Proofs
  Verif.Design_Yaml_Proofs Verif.Design_Props Verif.Trimmed_Model Verif.Trimmed_Spec Verif.Moments Verif.Trimmed_Proofs Verif.Trimmed_Real Verif.Trimmed_Props
  Verif.Cuped_Model Verif.Cuped_Props Verif.Stats_Model Verif.Stats_Num Verif.Stats_Props Verif.Tests_Proofs
  Verif.Tests_Props Verif.Tests_Props2 Verif.Periods_Model Verif.Periods_Proofs Verif.Periods_Props
  Verif.Rows_Model Verif.Rows_Spec Verif.Rows_Proofs Verif.Rows_Props
  Verif.Checks_Model Verif.Checks_Spec Verif.Checks_Proofs Verif.Checks_Props
  Verif.Pivot_Model Verif.Pivot_Spec Verif.Pivot_Proofs Verif.Pivot_Props
  Verif.Analysis_Spec Verif.Analysis_Model Verif.Analysis_Props Verif.Effect_Props Verif.Analysis_Props2
  Verif.Pipeline_Model Verif.Pipeline_Spec Verif.Pipeline_Proofs Verif.Experiment_Props Verif.Assign_Props Verif.Journey_Model Verif.Journey_Proofs
  Verif.Journey_Props Verif.Standard_Model Verif.Standard_Props Verif.Entry_Model Verif.Entry_Proofs Verif.Analyzer_Model.
Import ListNotations.
Open Scope string_scope.
Open Scope list_scope.
Open Scope Z_scope.

(** *** The texts of the form *)
(** the white space of ASCII *)
Definition white (c : ascii) : Prop := In (nat_of_ascii c) [9; 10; 11; 12; 13; 28; 29; 30; 31; 32]%nat.
Definition all_white (s : string) : Prop := forall c, In c (list_ascii_of_string s) -> white c.
Definition trimmed_text (s t : string) : Prop :=
  exists a b, (s = a ++ t ++ b)%string /\ all_white a /\ all_white b /\
    (forall c r, list_ascii_of_string t = c :: r -> ~ white c) /\ (forall c r, list_ascii_of_string t = r ++ [c] -> ~ white c).

Lemma is_space_iff c : is_space c = true <-> white c.
Proof.
  unfold is_space, white. set (n := nat_of_ascii c). cbv zeta. rewrite orb_true_iff, !andb_true_iff, !Nat.leb_le. cbn [In]. lia.
Qed.
Lemma not_space c : is_space c = false -> ~ white c.
Proof. intros E H. apply is_space_iff in H. congruence. Qed.
Lemma append_empty s : (s ++ "")%string = s.
Proof. induction s; cbn; congruence. Qed.
Lemma append_assoc_s (a b c : string) : ((a ++ b) ++ c = a ++ (b ++ c))%string.
Proof. induction a; cbn; congruence. Qed.
Lemma chars_app a b : list_ascii_of_string (a ++ b)%string = (list_ascii_of_string a ++ list_ascii_of_string b)%list.
Proof. induction a; cbn; congruence. Qed.

Lemma strip_left_spec s : exists a, (s = a ++ strip_left s)%string /\ all_white a /\
  forall c r, list_ascii_of_string (strip_left s) = c :: r -> ~ white c.
Proof.
  induction s as [|c s (a & E & A & N)]; [exists ""; split; auto; split; [intros ? []|discriminate]|].
  cbn [strip_left]. destruct (is_space c) eqn:W.
  - exists (String c a). split; [cbn; congruence|]. split; auto. intros x [<-|Hx]; [now apply is_space_iff|auto].
  - exists "". split; auto. split; [intros ? []|]. intros x r. cbn. intros [= <- <-]. now apply not_space.
Qed.
Lemma strip_right_spec s : exists b, (s = strip_right s ++ b)%string /\ all_white b /\
  forall c r, list_ascii_of_string (strip_right s) = (r ++ [c])%list -> ~ white c.
Proof.
  induction s as [|c s (b & E & B & N)]; [exists ""; split; auto; split; [intros ? []|intros c [|]; discriminate]|].
  cbn [strip_right]. destruct (String.eqb_spec (strip_right s) "") as [Z|Z].
  - rewrite Z in *. cbn in E. subst b. destruct (is_space c) eqn:W; cbn [andb].
    + exists (String c s). split; [reflexivity|]. split; [|intros x [|]; discriminate]. intros x [<-|Hx]; [now apply is_space_iff|auto].
    + exists s. split; [reflexivity|]. split; auto. intros x r X. cbn in X. destruct r as [|y [|z r]]; cbn in X; inversion X; subst. now apply not_space.
  - rewrite andb_false_r. exists b. split; [cbn; congruence|]. split; auto. intros x r X. cbn in X. destruct r as [|y r].
    + cbn in X. injection X as -> X. destruct (strip_right s); [congruence|discriminate].
    + cbn in X. injection X as -> X. eauto.
Qed.
Lemma strip_spaces_spec s : trimmed_text s (strip_spaces s).
Proof.
  destruct (strip_left_spec s) as (a & E & A & N). destruct (strip_right_spec (strip_left s)) as (b & E' & B & N').
  exists a, b. unfold strip_spaces. split; [congruence|]. split; auto. split; auto. split; auto.
  intros c r X. apply (N c (r ++ list_ascii_of_string b)%list). rewrite E', chars_app, X. reflexivity.
Qed.

Definition no_comma (s : string) : Prop := ~ In ","%char (list_ascii_of_string s).
Lemma split_commas_spec s : String.concat "," (split_commas s) = s /\ Forall no_comma (split_commas s).
Proof.
  unfold split_commas. induction s as [|c s IH]; [split; [reflexivity|constructor; [intros []|constructor]]|].
  cbn [split_first_comma]. destruct (split_first_comma s) as [h t]. destruct IH as [E F].
  destruct (Ascii.eqb_spec c ",") as [->|N].
  - split; [change (String.concat "," ("" :: h :: t)) with ("" ++ "," ++ String.concat "," (h :: t))%string; now rewrite E|].
    constructor; auto. intros [].
  - split.
    + destruct t; cbn [String.concat] in E |- *; [now rewrite <- E|]. rewrite <- E. reflexivity.
    + inversion F; subst. constructor; auto. intros [X|X]; [congruence|auto].
Qed.

Theorem c93_texts_of_the_form :
  forall s, String.concat "," (split_commas s) = s /\ Forall no_comma (split_commas s) /\ trimmed_text s (strip_spaces s).
Proof.
  intros s. destruct (split_commas_spec s) as [A B]. split; auto. split; auto. apply strip_spaces_spec.
Qed.

(** what is requested: the checks that are left out, the metrics and the indicators *)
Definition standard_metrics (f : form) : list (string * string) :=
  [("clicks", f_clicks f); ("impressions", f_impressions f); ("total_cost", f_cost f); ("conversions", f_conversions f);
   ("total_conversion_value", f_value f)].
Theorem c93_what_the_form_requests :
  forall f,
    (forall x, In x (form_skip f) <-> x <> "" /\ exists piece, In piece (split_commas (f_skip f)) /\ x = strip_spaces piece) /\
    (given_metrics (form_inputs f) ++ form_others f)%list = form_columns f /\
    (forall m, In m (form_columns f) <->
       (exists c, In (m, c) (standard_metrics f) /\ c <> "") \/
       (f_others f <> "" /\ exists piece, In piece (split_commas (f_others f)) /\ m = strip_spaces piece)) /\
    (forall m n, In (m, n) (form_at_least_one f) <->
       In (m, n) [("clicks", "at_least_one_click"); ("impressions", "at_least_one_impression"); ("conversions", "at_least_one_conversion")] /\
       In m (form_columns f)) /\
    plotted_columns f = (form_columns f ++ map snd (form_at_least_one f))%list.
Proof.
  intros f. assert (EQ : (given_metrics (form_inputs f) ++ form_others f)%list = form_columns f).
  { unfold given_metrics, form_inputs, form_columns, given. cbn [combine flat_map fst snd].
    destruct (String.eqb (f_clicks f) ""), (String.eqb (f_impressions f) ""), (String.eqb (f_cost f) ""), (String.eqb (f_conversions f) ""), (String.eqb (f_value f) ""); reflexivity. }
  split; [|split; [exact EQ|split; [|split; [|reflexivity]]]].
  - intros x. unfold form_skip. rewrite filter_In, negb_true_iff, in_map_iff. destruct (String.eqb_spec x "") as [->|N].
    + split; [intros [_ ?]; discriminate|intros [? _]; congruence].
    + split; [intros [(p & <- & Hp) _]; eauto|intros [_ (p & Hp & ->)]; eauto].
  - intros m. unfold form_columns, form_others. rewrite !in_app_iff.
    assert (G : forall c n, In m (if String.eqb c "" then [] else [n]) <-> m = n /\ c <> "").
    { intros c n. destruct (String.eqb_spec c "") as [->|N]; cbn; [intuition congruence|intuition congruence]. }
    rewrite !G. unfold standard_metrics. cbn [In].
    assert (O : In m (if String.eqb (f_others f) "" then [] else map strip_spaces (split_commas (f_others f))) <->
      f_others f <> "" /\ exists piece, In piece (split_commas (f_others f)) /\ m = strip_spaces piece).
    { destruct (String.eqb_spec (f_others f) "") as [->|N]; [cbn; intuition congruence|]. rewrite in_map_iff. split; [intros (p & <- & Hp); eauto|intros [_ (p & Hp & ->)]; eauto]. }
    rewrite O. clear. split.
    + intros [[-> H]|[[-> H]|[[-> H]|[[-> H]|[[-> H]|H]]]]]; [left; eauto 10|left; eauto 10|left; eauto 10|left; eauto 10|left; eauto 10|now right].
    + intros [(c & H & N)|H]; [|tauto]. destruct H as [[= <- <-]|[[= <- <-]|[[= <- <-]|[[= <- <-]|[[= <- <-]|[]]]]]]; tauto.
  - intros m n. unfold form_at_least_one. rewrite filter_In. cbn [fst]. rewrite (existsb_eqb_In _ String.eqb_eq). reflexivity.
Qed.

(** a name that is missing between two commas, or after the last one, is requested as the column "" *)
Lemma entry_standardizes std to_float to_int by_date binom outer perf asg d start item date arm inputs others neg alo concluded skip data :
  experiment_entry std to_float to_int by_date binom outer perf asg d start item date arm inputs others neg alo concluded skip = Ok data ->
  exists out, standardize std perf (Some item :: Some date :: inputs) (map (fun c => (c, c)) others) (map (fun c => (c, to_float)) others) = Ok out.
Proof.
  intros H. unfold experiment_entry in H. apply bind_ok in H as (? & _ & H). apply bind_ok in H as (? & _ & H). cbv zeta in H.
  apply bind_ok in H as (? & _ & H). apply bind_ok in H as (? & _ & H). apply bind_ok in H as (? & _ & H). apply bind_ok in H as (o & E & _). eauto.
Qed.

Theorem c93_other_columns_must_exist :
  forall std to_float to_int by_date binom outer perf asg d start item date arm f neg concluded data,
    experiment_entry std to_float to_int by_date binom outer perf asg d start item date arm (form_inputs f) (form_others f) neg
      (form_at_least_one f) concluded (form_skip f) = Ok data ->
    (forall m c, In (m, c) (standard_metrics f) -> c <> "" -> has_col c perf = true) /\
    (f_others f <> "" -> forall piece, In piece (split_commas (f_others f)) ->
       has_col (strip_spaces piece) perf = true /\ ~ In (strip_spaces piece) standard_names) /\
    (has_col "" perf = false -> f_others f <> "" -> forall piece, In piece (split_commas (f_others f)) -> ~ all_white piece).
Proof.
  intros std to_float to_int by_date binom outer perf asg d start item date arm f neg concluded data H.
  apply entry_standardizes in H as (out & H). apply standardize_ok_request in H as (R1 & _ & R3).
  assert (P : f_others f <> "" -> forall piece, In piece (split_commas (f_others f)) ->
       has_col (strip_spaces piece) perf = true /\ ~ In (strip_spaces piece) standard_names).
  { intros N piece Hp. assert (I : In (strip_spaces piece) (form_others f)).
    { unfold form_others. destruct (String.eqb_spec (f_others f) ""); [congruence|]. now apply in_map. }
    split.
    - apply R3. unfold request. rewrite !map_app, !in_app_iff. do 6 right. rewrite map_map. cbn [snd]. now rewrite map_id.
    - apply R1. rewrite map_map. cbn [fst]. now rewrite map_id. }
  split; [|split; [exact P|]].
  - intros m c Hc N. apply R3. unfold request. rewrite !map_app, !in_app_iff.
    assert (G : forall n, In c (map snd (match given c with Some i => [(n : string, i)] | None => [] end))).
    { intros n. unfold given. destruct (String.eqb_spec c ""); [congruence|]. now left. }
    destruct Hc as [[= <- <-]|[[= <- <-]|[[= <- <-]|[[= <- <-]|[[= <- <-]|[]]]]]].
    + right; left; apply G.
    + do 2 right; left; apply G.
    + do 3 right; left; apply G.
    + do 4 right; left; apply G.
    + do 5 right; left; apply G.
  - intros NC N piece Hp W. destruct (P N piece Hp) as [X _]. enough (strip_spaces piece = "") by congruence.
    destruct (strip_spaces_spec piece) as (a & b & E & _ & _ & F & _). destruct (strip_spaces piece) as [|x t]; auto.
    elim (F x _ eq_refl). apply W. rewrite E, !chars_app. apply in_or_app. right. now left.
Qed.

(** *** The analysis of the prepared data *)
(** the columns of the prepared data have different names *)
Definition distinct_columns (f : form) : Prop := NoDup (plotted_columns f ++ own_columns).

Lemma NoDup_app_inv {A} (l m : list A) : NoDup (l ++ m) -> NoDup l /\ NoDup m /\ forall x, In x l -> ~ In x m.
Proof.
  induction l as [|a l IH]; cbn; intros H; [split; [constructor|split; auto]|]. inversion H as [|? ? N H']; subst. apply IH in H' as (A1 & A2 & A3).
  split; [constructor; auto; intros I; apply N, in_or_app; now left|]. split; auto. intros x [<-|Hx]; auto. intros I. apply N, in_or_app. now right.
Qed.
Lemma form_fresh f : distinct_columns f ->
  NoDup (form_columns f) /\ fresh_indicators (form_columns f) (form_at_least_one f) /\
  forall c, In c own_columns -> ~ In c (form_columns f ++ map snd (form_at_least_one f)).
Proof.
  intros H. unfold distinct_columns, plotted_columns in H. assert (H' := H). apply NoDup_app_inv in H as (H1 & _ & H2).
  apply NoDup_app_inv in H1 as (A & B & C). split; auto. split.
  - split; auto. intros m n I. split.
    + now apply (proj1 (proj2 (proj2 (proj2 (c93_what_the_form_requests f)))) m n) in I.
    + intros J. apply (C n J). apply in_map_iff. now exists (m, n).
  - intros c I J. exact (H2 c J I).
Qed.

Section Prepared.
Context by_date binom outer perf assigned d f start concluded neg skip out
  (HP : forall l, Permutation (outer l) l) (HF : distinct_columns f)
  (HR : forall o, In o perf -> List.length (o_vals o) = List.length (form_columns f))
  (H : prepare_experiment by_date binom outer perf assigned d (form_columns f) start concluded neg (form_at_least_one f) skip = Ok out).

Lemma prepared_names r : In r out -> map fst (e_cols r) = plotted_columns f.
Proof.
  destruct (form_fresh f HF) as (NM & FI & _). intros Hr.
  pose proof H as H'. apply prepare_experiment_ok in H' as (_ & _ & _ & lab & _ & HI); [|exact HP].
  destruct (proj1 (HI r) Hr) as (_ & _ & _ & _ & _ & vals & A6 & A7).
  assert (LV : List.length vals = List.length (form_columns f)).
  { destruct A6 as [(o & Ho & _ & _ & ->)|[_ ->]]; [rewrite map_length; now apply HR|apply repeat_length]. }
  assert (ML : map fst (combine (form_columns f) vals) = form_columns f).
  { clear - LV. revert vals LV. induction (form_columns f) as [|x l IH]; intros [|v vals]; cbn; intros L; try discriminate; auto. f_equal. apply IH. lia. }
  now destruct (at_least_one_value _ _ NM FI _ _ ML A7) as [X _].
Qed.
Lemma prepared_some : out <> [].
Proof.
  pose proof H as H'. apply prepare_experiment_ok in H' as (NA & NP & _ & lab & _ & HI); [|exact HP].
  destruct perf as [|o0 l] eqn:EP; [congruence|]. destruct assigned as [|[i a] l'] eqn:EA; [congruence|].
  destruct (prepare_experiment_covers _ _ _ _ _ _ _ _ _ _ _ _ _ HP H i (o_date o0)) as (r & Hr & _).
  - exists a. now left.
  - exists o0. split; [now left|reflexivity].
  - intros E. rewrite E in Hr. destruct Hr.
Qed.
End Prepared.

Theorem c93_all_five_columns_are_needed :
  forall T argsort as_list by_date binom outer perf assigned d f start concluded neg skip out,
    (forall l, Permutation (outer l) l) -> lists_a_set as_list -> distinct_columns f ->
    (forall o, In o perf -> List.length (o_vals o) = List.length (form_columns f)) ->
    prepare_experiment by_date binom outer perf assigned d (form_columns f) start concluded neg (form_at_least_one f) skip = Ok out ->
    (exists c, In c ["clicks"; "impressions"; "total_cost"; "conversions"; "total_conversion_value"] /\ ~ In c (form_columns f)) ->
    notebook_analysis T argsort as_list out d = Err (ValueError "missing columns").
Proof.
  intros T argsort as_list by_date binom outer perf assigned d f start concluded neg skip out HP HL HF HR H (c & Hc & N).
  assert (NM := prepared_names _ _ _ _ _ _ _ _ _ _ _ _ HP HF HR H). assert (NE := prepared_some _ _ _ _ _ _ _ _ _ _ _ _ HP HR H).
  destruct (form_fresh f HF) as (_ & _ & OWN).
  assert (MISS : has_col c (analysed_frame out) = false).
  { apply has_col_none. rewrite (prepared_columns (plotted_columns f) out NM NE OWN).
    assert (X : existsb (String.eqb c) (plotted_columns f) = false).
    { apply existsb_false_iff. intros x Hx. apply String.eqb_neq. intros <-. unfold plotted_columns in Hx. apply in_app_or in Hx as [Hx|Hx]; [tauto|].
      apply in_map_iff in Hx as ((m & n) & E & Hx). cbn in E. subst n. unfold form_at_least_one in Hx. apply filter_In in Hx as [Hx _].
      cbn in Hc, Hx. intuition congruence. }
    rewrite X. cbn in Hc. destruct Hc as [<-|[<-|[<-|[<-|[<-|[]]]]]]; reflexivity. }
  unfold notebook_analysis. fold (analysed_frame out). unfold analyze_experiment. cbn [notebook_metrics].
  fold notebook_metrics. unfold pivot_time_assignment.
  assert (HC0 : has_col "time_period" (analysed_frame out) = false) by (apply has_col_none; unfold analysed_frame; apply get_dropped).
  rewrite HC0. match goal with |- context [existsb ?g ?l] => assert (EX : existsb g l = true) end.
  { apply existsb_exists. exists c. split; [|now rewrite MISS]. do 2 right. apply in_or_app. left.
    apply (proj2 (HL (metric_columns_of notebook_metrics))). cbn. cbn in Hc. tauto. }
  rewrite EX. reflexivity.
Qed.

(** *** Crossover experiments *)
Lemma paired_ratio_runs T argsort xs ys ds es q alternative alpha : sorts argsort -> usable (List.length xs) q ->
  List.length ys = List.length xs -> List.length ds = List.length xs -> List.length es = List.length xs -> known alternative ->
  exists r, yuens_t_test_paired T argsort (data xs) (data ys) q (Some (data ds)) (Some (data es)) alternative alpha = Ok r.
Proof.
  intros HS U L L1 L2 K. unfold yuens_t_test_paired. replace (List.length (data xs)) with (List.length (data ys)) by (unfold data; now rewrite !map_length).
  rewrite Nat.eqb_refl. cbn [negb raise_if bind ratio_arguments]. rewrite differences_data.
  assert (LL : forall r, In r [data (minus xs ys); data xs; data ds; data ys; data es] -> List.length r = List.length xs).
  { intros r [<-|[<-|[<-|[<-|[<-|[]]]]]]; unfold data; rewrite map_length; auto. now apply minus_length. }
  unfold np_stack. rewrite (proj2 (forallb_forall _ _)).
  - cbn [negb raise_if bind]. destruct (mk_trimmed_usable argsort [data (minus xs ys); data xs; data ds; data ys; data es] q _ HS U ltac:(discriminate) LL) as (t & -> & _).
    cbn [bind]. destruct (difference_of_ratios _ _) as [[[[[[a b] c] e] g] h] i]. apply finish_test_total; auto. intros. eexists. reflexivity.
  - intros r Hr. cbn [hd]. apply Nat.eqb_eq. rewrite (LL r Hr). symmetry. apply LL. now left.
Qed.

(** a metric with a denominator, or with another fraction of trimmed items, has a result too *)
Theorem c93_crossover_results_with_ratios :
  forall T argsort as_list by_date binom outer perf assigned d metrics start neg alo skip out time wanted,
    (forall l, Permutation (outer l) l) -> lists_a_set as_list -> sorts argsort -> mk_design (par d) = Ok d ->
    NoDup metrics -> fresh_indicators metrics alo ->
    (forall c, In c own_columns -> ~ In c (metrics ++ map snd alo)) ->
    (forall o, In o perf -> List.length (o_vals o) = List.length metrics /\ o_date o mod day_ns = time) ->
    (forall n, In n ["no_nulls"; "no_duplicate_items_per_date"; "dates_are_daily_or_weekly"; "all_metrics_are_finite";
                     "experiment_dates_match_design"] -> ~ In n skip) ->
    wanted <> [] -> (forall c, In c (metric_columns_of wanted) -> In c (metrics ++ map snd alo)) ->
    (forall m q, In m wanted -> ms_override m = Some q -> is_finite q = true /\ (0 <= B2R q < 1 / 2)%R) ->
    crossover (par d) = true -> Z.of_nat (List.length assigned) <= 2 ^ 53 ->
    prepare_experiment by_date binom outer perf assigned d metrics start true neg alo skip = Ok out ->
    exists res,
      analyze_experiment T argsort as_list (analysed_frame out) wanted (par d) "week_id" "item_id" "treatment_assignment" =
        (analysed_frame out, Ok res) /\
      map fst res = map ms_name wanted.
Proof.
  intros T argsort as_list by_date binom outer perf assigned d metrics start neg alo skip out time wanted
    HP HL SO HD NM FI OWN HR HS NW HW OV C NB H.
  destruct (c83_end_to_end T argsort as_list by_date binom outer perf assigned d metrics start neg alo skip out time wanted
    HP HL HD NM FI OWN HR HS NW HW H) as (keys & V & _ & PK & FIN & _ & E).
  assert (NA : assigned <> []) by (pose proof H as H'; apply prepare_experiment_ok in H' as (NA & _); auto).
  assert (LK : List.length keys = List.length assigned) by (rewrite (Permutation_length PK), map_length; reflexivity).
  assert (NK : keys <> []) by (intros X; rewrite X in LK; destruct assigned; [congruence|discriminate]).
  assert (P0 : (0 < List.length keys)%nat) by (destruct keys; [congruence|cbn; lia]).
  assert (U : forall m, In m wanted -> usable (List.length keys) (match ms_override m with Some q => q | None => post (par d) end)).
  { intros m Hm. destruct (ms_override m) as [q|] eqn:EO.
    - destruct (OV m q Hm EO) as [F1 F2]. split; auto. split; auto. now rewrite LK.
    - apply (usable_design_post _ d); auto. now rewrite LK. }
  assert (TE : forall m, In m wanted -> exists r, tested T argsort (par d) keys V m = Ok r).
  { intros m Hm. unfold tested. change recorded_arm with key_arm. rewrite C. cbv beta zeta. specialize (U m Hm). set (q := match ms_override m with Some q => q | None => post (par d) end) in *.
    assert (G : forall c, In c (metric_columns_of wanted) -> exists tr co,
      prepare_crossover (@map akey num (V c "test_1") keys) (@map akey num (V c "test_2") keys) (@map akey (option Z) key_arm keys) (is_zero q) = (data tr, data co) /\
      List.length tr = List.length keys /\ List.length co = List.length keys).
    { intros c Hc. assert (N1 : needed (par d) "test_1" /\ needed (par d) "test_2") by (unfold needed; rewrite C; auto).
      assert (Ff : exists g, @map akey num (V c "test_1") keys = map (fun k => Fin (g k)) keys) by (apply finite_column; intros; apply FIN; tauto).
      destruct Ff as (f & ->).
      assert (Fg : exists g, @map akey num (V c "test_2") keys = map (fun k => Fin (g k)) keys) by (apply finite_column; intros; apply FIN; tauto).
      destruct Fg as (g & ->).
      set (l := map (fun k => mkX (key_arm k) (f k) (g k)) keys).
      assert (LL : List.length l = List.length keys) by (unfold l; now rewrite map_length).
      replace (map key_arm keys) with (map x_arm (map finite l)) by (unfold l; now rewrite !map_map).
      replace (map (fun k => Fin (f k)) keys) with (map x_one (map finite l)) by (unfold l; now rewrite !map_map).
      replace (map (fun k => Fin (g k)) keys) with (map x_two (map finite l)) by (unfold l; now rewrite !map_map).
      destruct (is_zero q).
      - destruct (c62_demeaned l) as (tr & co & X & L1 & L2 & _); [intros X; rewrite X in LL; destruct keys; [congruence|discriminate]|].
        exists tr, co. split; auto. split; congruence.
      - exists (map while_treated l), (map while_control l). rewrite c62_pairs_raw_values, !map_length. split; auto.
        now rewrite treated_finite, control_finite. }
    assert (IC : In (ms_column m) (metric_columns_of wanted)) by (unfold metric_columns_of; apply in_or_app; left; now apply in_map).
    destruct (G _ IC) as (tr & co & -> & L1 & L2). cbn [fst snd].
    destruct (ms_denominator m) as [c|] eqn:ED.
    - assert (ID : In c (metric_columns_of wanted)) by (unfold metric_columns_of; apply in_or_app; right; apply in_flat_map; exists m; split; auto; rewrite ED; now left).
      destruct (G _ ID) as (dt & dc & -> & L3 & L4). cbn [fst snd].
      apply paired_ratio_runs; [exact SO|rewrite L1; exact U|congruence|congruence|congruence|left; reflexivity].
    - apply paired_runs; [exact SO|rewrite L1; exact U|congruence|left; reflexivity]. }
  rewrite E.
  assert (MM : forall l, (forall m, In m l -> In m wanted) -> exists res,
    mapM (fun m => let! r := tested T argsort (par d) keys V m in Ok (ms_name m, r)) l = Ok res /\ map fst res = map ms_name l).
  { induction l as [|m l IH]; intros Hl; [exists []; auto|]. destruct IH as (res & ER & EN); [intros; apply Hl; now right|].
    destruct (TE m (Hl m (or_introl eq_refl))) as (r & Er). exists ((ms_name m, r) :: res). cbn [mapM]. rewrite Er. cbn [bind]. rewrite ER.
    split; [reflexivity|]. cbn. now rewrite EN. }
  destruct (MM wanted (fun m Hm => Hm)) as (res & -> & EN). eauto.
Qed.

(** the eleven metrics of the notebook *)
Definition eleven : list string :=
  ["Clicks"; "Impressions"; "Cost"; "Conversions"; "Conversion value"; "At least one impression"; "At least one click";
   "At least one conversion"; "CTR"; "CPC"; "ROAS"].
Theorem c93_crossover_gives_eleven_results :
  forall T argsort as_list by_date binom outer perf assigned d f start neg skip out time,
    (forall l, Permutation (outer l) l) -> lists_a_set as_list -> sorts argsort -> mk_design (par d) = Ok d -> distinct_columns f ->
    (forall o, In o perf -> List.length (o_vals o) = List.length (form_columns f) /\ o_date o mod day_ns = time) ->
    (forall n, In n ["no_nulls"; "no_duplicate_items_per_date"; "dates_are_daily_or_weekly"; "all_metrics_are_finite";
                     "experiment_dates_match_design"] -> ~ In n skip) ->
    crossover (par d) = true -> Z.of_nat (List.length assigned) <= 2 ^ 53 ->
    prepare_experiment by_date binom outer perf assigned d (form_columns f) start true neg (form_at_least_one f) skip = Ok out ->
    ((exists res, notebook_analysis T argsort as_list out d = Ok res /\ map fst res = eleven) <->
     forall c, In c ["clicks"; "impressions"; "total_cost"; "conversions"; "total_conversion_value"] -> In c (form_columns f)).
Proof.
  intros T argsort as_list by_date binom outer perf assigned d f start neg skip out time HP HL SO HD HF HR HS C NB H. split.
  - intros (res & E & _) c Hc. destruct (in_dec string_dec c (form_columns f)) as [I|N]; auto. exfalso.
    rewrite (c93_all_five_columns_are_needed T argsort as_list by_date binom outer perf assigned d f start true neg skip out HP HL HF (fun o Ho => proj1 (HR o Ho)) H) in E;
      [discriminate|eauto].
  - intros ALL. destruct (form_fresh f HF) as (NM & FI & OWN).
    destruct (c93_crossover_results_with_ratios T argsort as_list by_date binom outer perf assigned d (form_columns f) start neg (form_at_least_one f) skip out time
      notebook_metrics HP HL SO HD NM FI OWN HR HS) as (res & E & N); auto.
    + discriminate.
    + intros c Hc. apply in_or_app.
      assert (ALO : forall m n, In (m, n) [("clicks", "at_least_one_click"); ("impressions", "at_least_one_impression"); ("conversions", "at_least_one_conversion")] ->
        In m (form_columns f) -> In n (map snd (form_at_least_one f))).
      { intros m n I J. apply in_map_iff. exists (m, n). split; auto. apply (proj1 (proj2 (proj2 (proj2 (c93_what_the_form_requests f))))). auto. }
      cbn in Hc. repeat (destruct Hc as [<-|Hc]; [first [left; apply ALL; cbn; tauto
        | right; first [apply (ALO "impressions"); [cbn; tauto|apply ALL; cbn; tauto] | apply (ALO "clicks"); [cbn; tauto|apply ALL; cbn; tauto] | apply (ALO "conversions"); [cbn; tauto|apply ALL; cbn; tauto]]]|]).
      destruct Hc.
    + intros m q Hm EQ. assert (q = f0) as -> by (cbn [In notebook_metrics] in Hm; repeat (destruct Hm as [<-|Hm]; [cbn [ms_override] in EQ; congruence|]); destruct Hm).
      split; [reflexivity|]. replace (B2R f0) with 0%R by reflexivity. lra.
    + exists res. split; [|exact N]. unfold notebook_analysis. fold (analysed_frame out). now rewrite E.
Qed.
Print Assumptions c93_texts_of_the_form.
Print Assumptions c93_what_the_form_requests.
Print Assumptions c93_other_columns_must_exist.
Print Assumptions c93_all_five_columns_are_needed.
Print Assumptions c93_crossover_results_with_ratios.
Print Assumptions c93_crossover_gives_eleven_results.
