(** C90, continued: designs with the same text, and what the text does not say. *)
From Coq Require Import ZArith Reals List String Ascii Bool Lia Lra.
From Flocq Require Import Core BinarySingleNaN.
Require Import Verif.Base Verif.F64 Verif.MD5 Verif.Design_Model Verif.Design_Spec Verif.Design_Proofs
  Verif.Design_Yaml_Proofs Verif.Design_Text_Proofs Verif.Design_Props Verif.Display_Model Verif.Display_Spec Verif.Display_Props
  Verif.Text_Model Verif.Text_Spec Verif.Text_Proofs Verif.Text_Props Verif.Text_Props2.
Import ListNotations.
Open Scope string_scope.
Open Scope Z_scope.

(** two designs with the same text agree in everything the text shows *)
Theorem c90_same_text_same_design :
  forall frepr p1 d1 p2 d2 text,
    mk_design p1 = Ok d1 -> 0 <= n_before p1 <= 2 ^ 53 -> readable frepr p1 -> design_text frepr d1 = Ok text ->
    mk_design p2 = Ok d2 -> 0 <= n_before p2 <= 2 ^ 53 -> readable frepr p2 -> design_text frepr d2 = Ok text ->
    crossover p1 = crossover p2 /\ metric p1 = metric p2 /\ pretest p1 = pretest p2 /\ runtime p1 = runtime p2 /\
    (crossover p1 = true -> washout p1 = washout p2) /\
    n_before p1 = n_before p2 /\ n_pre d1 = n_pre d2 /\ n_post d1 = n_post d2 /\
    frepr (alpha p1) = frepr (alpha p2) /\ frepr (power p1) = frepr (power p2).
Proof.
  intros frepr p1 d1 p2 d2 text H1 B1 R1 T1 H2 B2 R2 T2.
  destruct (c90_what_the_text_says frepr p1 d1 text H1 R1 T1) as (A1 & _ & _ & A4 & A5 & A6 & A7 & A8 & _).
  destruct (c90_what_the_text_says frepr p2 d2 text H2 R2 T2) as (A1' & _ & _ & A4' & A5' & A6' & A7' & A8' & _).
  destruct (c90_crossover_lines frepr p1 d1 text H1 R1 T1) as (C1 & _). destruct (c90_crossover_lines frepr p2 d2 text H2 R2 T2) as (C1' & _).
  destruct (c90_item_lines frepr p1 d1 text H1 B1 R1 T1) as (_ & I2 & I3 & I4 & I5). destruct (c90_item_lines frepr p2 d2 text H2 B2 R2 T2) as (_ & I2' & I3' & I4' & I5').
  destruct (design_counts p1 d1 H1 B1) as (O1 & O2 & O3). destruct (design_counts p2 d2 H2 B2) as (O1' & O2' & O3').
  assert (X : crossover p1 = crossover p2).
  { apply eq_true_iff_eq. rewrite <- A1, <- A1'. tauto. }
  assert (NB : n_before p1 = n_before p2).
  { destruct (Z_lt_ge_dec (n_post d1) (n_before p1)) as [L|L].
    - assert (Q := proj2 (I3 (n_before p1)) (conj L eq_refl)). apply I3' in Q. tauto.
    - assert (Q := proj2 (I2 (n_before p1)) (conj (fun x => L x) eq_refl)). apply I2' in Q. tauto. }
  assert (NP : n_pre d1 = n_pre d2).
  { destruct (Z_lt_ge_dec (n_pre d1) (n_before p1)) as [L|L].
    - assert (Q := proj2 (I4 (n_pre d1)) (conj L eq_refl)). apply I4' in Q. tauto.
    - destruct (Z_lt_ge_dec (n_pre d2) (n_before p2)) as [L'|L']; [|lia].
      assert (Q := proj2 (I4' (n_pre d2)) (conj L' eq_refl)). apply I4 in Q. lia. }
  assert (NQ : n_post d1 = n_post d2).
  { destruct (Z_lt_ge_dec (n_post d1) (n_pre d1)) as [L|L].
    - assert (Q := proj2 (I5 (n_post d1)) (conj L eq_refl)). apply I5' in Q. tauto.
    - destruct (Z_lt_ge_dec (n_post d2) (n_pre d2)) as [L'|L']; [|lia].
      assert (Q := proj2 (I5' (n_post d2)) (conj L' eq_refl)). apply I5 in Q. lia. }
  split; auto. split; [apply A4', A4; reflexivity|]. split; [apply A5', A5; reflexivity|]. split; [apply A6', A6; reflexivity|].
  split. { intros C. assert (V := proj1 (proj1 (mk_design_iff p1 d1) H1)). destruct (ok_crossover p1 V C) as (w & W & _).
    rewrite W. symmetry. apply C1'. apply C1. auto. }
  split; auto. split; auto. split; auto. split; [apply A7', A7; reflexivity|apply A8', A8; reflexivity].
Qed.

Lemma toy_one_line x : one_line (toy_repr x).
Proof.
  apply one_line_iff. change (clean (toy_repr x)). destruct x as [[]|[]| |[] m e h]; try reflexivity; cbn [toy_repr];
    (apply clean_app; [reflexivity|]); apply clean_app; try apply dec_clean; apply (clean_app "e"); try reflexivity; apply dec_clean.
Qed.

(** a design printed in full *)
Example c90_example :
  readable toy_repr ex_params /\
  exists text, design_text toy_repr ex_design = Ok text /\
    lines_of text =
      (["Design 37edfc930053c5fbbb18470f996bb875"; "";
       tab ++ "Experiment type: crossover experiment";
       tab ++ "Primary metric: clicks";
       tab ++ "Number of weeks of data before start of experiment used for analysis: 4";
       tab ++ "Total experiment runtime weeks: 8"; "";
       "Crossover Details:"; "";
       tab ++ "Control and treatment to be swapped 4 weeks after starting the experiment";
       tab ++ "Number of crossover washout weeks to ignore at start of each period: 1";
       tab ++ "Weeks [1, 5] are the washout weeks to be excluded from the analysis"; "";
       "Number of items for testing:"; "";
       tab ++ "Number of items eligible for experimentation (before trimming): 1000"; "";
       tab ++ "Top 10.00% of items with highest clicks in pre-test period will not be included in experiment";
       tab ++ "Bottom 5.00% items with lowest clicks in pre-test period will not be included in experiment";
       tab ++ "Number of items remaining after trimming for the experiment: 850"; "";
       tab ++ "Top and bottom 10.00% of items with highest / lowest clicks during experiment runtime will be excluded from the analysis";
       tab ++ "Number of items remaining after trimming for the analysis: 680"; "";
       "Extra details:"; "";
       tab ++ "Alpha threshold: +7205759403792794e-57";
       tab ++ "Power: +7205759403792794e-53";
       tab ++ "Coinflip salt: None"]).
Proof.
  split.
  - constructor; [|discriminate|exact toy_one_line]. apply one_line_iff. reflexivity.
  - eexists. split; vm_compute; reflexivity.
Qed.

(** *** The texts of the unit tests of the repository
    The model (with the hashes) prints the six texts that experiment_design_test.py expects. *)
Definition test_repr (x : f64) : string :=
  if feqb x f0 then "0.0" else if feqb x (flit 1 100) then "0.01" else if feqb x (flit 2 100) then "0.02"
  else if feqb x (flit 5 100) then "0.05" else if feqb x (flit 8 10) then "0.8" else "?".
Definition printed (p : params) (lines : list string) : Prop :=
  match mk_design p with
  | Ok d => match design_text test_repr d with
            | Ok text => text = join (String newline "") lines
            | Err _ => False
            end
  | Err _ => False
  end.
(** experiment_design_test.py:347 [test_prints_expected_string_for_crossover] *)
Example c90_test_for_crossover :
  printed (mkParams 1000 8 "clicks" 4 true f0 f0 f0 (Some 2) (flit 5 100) (flit 8 10) None)
    ["Design 1107a82030639088175ba76cab781121";
     "";
     tab ++ "Experiment type: crossover experiment";
     tab ++ "Primary metric: clicks";
     tab ++ "Number of weeks of data before start of experiment used for analysis: 4";
     tab ++ "Total experiment runtime weeks: 8";
     "";
     "Crossover Details:";
     "";
     tab ++ "Control and treatment to be swapped 4 weeks after starting the experiment";
     tab ++ "Number of crossover washout weeks to ignore at start of each period: 2";
     tab ++ "Weeks [1, 2, 5, 6] are the washout weeks to be excluded from the analysis";
     "";
     "Number of items for testing:";
     "";
     tab ++ "Number of items: 1000";
     tab ++ "No hero / outlier trimming used";
     "";
     "Extra details:";
     "";
     tab ++ "Alpha threshold: 0.05";
     tab ++ "Power: 0.8";
     tab ++ "Coinflip salt: None"].
Proof. vm_compute. reflexivity. Qed.

(** experiment_design_test.py:401 [test_prints_expected_string_for_non_crossover_with_cuped] *)
Example c90_test_for_non_crossover_with_cuped :
  printed (mkParams 1000 8 "clicks" 4 false f0 f0 f0 (Some 2) (flit 5 100) (flit 8 10) None)
    ["Design 0e4192ad17f4685470ad26e49ee5c45d";
     "";
     tab ++ "Experiment type: regular experiment (CUPED adjusted)";
     tab ++ "Primary metric: clicks";
     tab ++ "Number of weeks of data before start of experiment used for analysis: 4";
     tab ++ "Total experiment runtime weeks: 8";
     "";
     "Number of items for testing:";
     "";
     tab ++ "Number of items: 1000";
     tab ++ "No hero / outlier trimming used";
     "";
     "Extra details:";
     "";
     tab ++ "Alpha threshold: 0.05";
     tab ++ "Power: 0.8";
     tab ++ "Coinflip salt: None"].
Proof. vm_compute. reflexivity. Qed.

(** experiment_design_test.py:440 [test_prints_expected_string_for_non_crossover_without_cuped] *)
Example c90_test_for_non_crossover_without_cuped :
  printed (mkParams 1000 8 "clicks" 0 false f0 f0 f0 (Some 2) (flit 5 100) (flit 8 10) None)
    ["Design 516f3ecd3bf14622f9962912aefbe791";
     "";
     tab ++ "Experiment type: regular experiment";
     tab ++ "Primary metric: clicks";
     tab ++ "Number of weeks of data before start of experiment used for analysis: 0";
     tab ++ "Total experiment runtime weeks: 8";
     "";
     "Number of items for testing:";
     "";
     tab ++ "Number of items: 1000";
     tab ++ "No hero / outlier trimming used";
     "";
     "Extra details:";
     "";
     tab ++ "Alpha threshold: 0.05";
     tab ++ "Power: 0.8";
     tab ++ "Coinflip salt: None"].
Proof. vm_compute. reflexivity. Qed.

(** experiment_design_test.py:479 [test_prints_expected_string_with_pre_trimming] *)
Example c90_test_with_pre_trimming :
  printed (mkParams 1000 8 "clicks" 4 false (flit 1 100) (flit 2 100) f0 (Some 2) (flit 5 100) (flit 8 10) None)
    ["Design f4258976a05e23a2153208f76cbf0920";
     "";
     tab ++ "Experiment type: regular experiment (CUPED adjusted)";
     tab ++ "Primary metric: clicks";
     tab ++ "Number of weeks of data before start of experiment used for analysis: 4";
     tab ++ "Total experiment runtime weeks: 8";
     "";
     "Number of items for testing:";
     "";
     tab ++ "Number of items eligible for experimentation (before trimming): 1000";
     "";
     tab ++ "Top 1.00% of items with highest clicks in pre-test period will not be included in experiment";
     tab ++ "Bottom 2.00% items with lowest clicks in pre-test period will not be included in experiment";
     tab ++ "Number of items remaining after trimming for the experiment: 970";
     "";
     "Extra details:";
     "";
     tab ++ "Alpha threshold: 0.05";
     tab ++ "Power: 0.8";
     tab ++ "Coinflip salt: None"].
Proof. vm_compute. reflexivity. Qed.

(** experiment_design_test.py:530 [test_prints_expected_string_with_post_trimming] *)
Example c90_test_with_post_trimming :
  printed (mkParams 1000 8 "clicks" 4 false f0 f0 (flit 1 100) (Some 2) (flit 5 100) (flit 8 10) None)
    ["Design 0f6ec75f1385ca9b7172daba623471ba";
     "";
     tab ++ "Experiment type: regular experiment (CUPED adjusted)";
     tab ++ "Primary metric: clicks";
     tab ++ "Number of weeks of data before start of experiment used for analysis: 4";
     tab ++ "Total experiment runtime weeks: 8";
     "";
     "Number of items for testing:";
     "";
     tab ++ "Number of items eligible for experimentation (before trimming): 1000";
     "";
     tab ++ "Top and bottom 1.00% of items with highest / lowest clicks during experiment runtime will be excluded from the analysis";
     tab ++ "Number of items remaining after trimming for the analysis: 980";
     "";
     "Extra details:";
     "";
     tab ++ "Alpha threshold: 0.05";
     tab ++ "Power: 0.8";
     tab ++ "Coinflip salt: None"].
Proof. vm_compute. reflexivity. Qed.

(** experiment_design_test.py:577 [test_prints_expected_string_with_pre_and_post_trimming] *)
Example c90_test_with_pre_and_post_trimming :
  printed (mkParams 1000 8 "clicks" 4 false (flit 1 100) (flit 2 100) (flit 1 100) (Some 2) (flit 5 100) (flit 8 10) None)
    ["Design b9095ff233d9cccc342d62b2aef06ecb";
     "";
     tab ++ "Experiment type: regular experiment (CUPED adjusted)";
     tab ++ "Primary metric: clicks";
     tab ++ "Number of weeks of data before start of experiment used for analysis: 4";
     tab ++ "Total experiment runtime weeks: 8";
     "";
     "Number of items for testing:";
     "";
     tab ++ "Number of items eligible for experimentation (before trimming): 1000";
     "";
     tab ++ "Top 1.00% of items with highest clicks in pre-test period will not be included in experiment";
     tab ++ "Bottom 2.00% items with lowest clicks in pre-test period will not be included in experiment";
     tab ++ "Number of items remaining after trimming for the experiment: 970";
     "";
     tab ++ "Top and bottom 1.00% of items with highest / lowest clicks during experiment runtime will be excluded from the analysis";
     tab ++ "Number of items remaining after trimming for the analysis: 952";
     "";
     "Extra details:";
     "";
     tab ++ "Alpha threshold: 0.05";
     tab ++ "Power: 0.8";
     tab ++ "Coinflip salt: None"].
Proof. vm_compute. reflexivity. Qed.

(** *** What the text does not say *)
Lemma computed_counts p a b :
  match mk_design p with Ok d => andb (n_pre d =? a) (n_post d =? b) | Err _ => false end = true ->
  exists d, mk_design p = Ok d /\ n_pre d = a /\ n_post d = b.
Proof.
  destruct (mk_design p) as [d|e]; [|discriminate]. intros H. apply andb_true_iff in H as [A B].
  apply Z.eqb_eq in A, B. eauto.
Qed.

(** "No hero / outlier trimming used" is not about the percentiles: this design trims 1 % of 60 items, i.e. none *)
Definition few_items : params :=
  mkParams 60 8 "clicks" 4 false f0 f0 (flit 1 100) None (flit 5 100) (flit 8 10) None.
Theorem c90_no_trimming_means_no_percentile_refuted :
  exists frepr p d text, mk_design p = Ok d /\ readable frepr p /\ design_text frepr d = Ok text /\
    says text "No hero / outlier trimming used" /\ (0 < B2R (post p))%R.
Proof.
  assert (M := computed_counts few_items 60 60 ltac:(vm_compute; reflexivity)).
  destruct M as (d & M & N2 & N1).
  assert (RD : readable toy_repr few_items) by (constructor; [|discriminate|exact toy_one_line]; apply one_line_iff; reflexivity).
  destruct (c90_every_design_can_be_printed toy_repr few_items d None M) as (id & rest & _ & T).
  assert (S : set_salt d None = d) by (apply mk_design_iff in M as [_ ->]; reflexivity). rewrite S in T.
  exists toy_repr, few_items, d. eexists. split; auto. split; auto. split; [exact T|]. split.
  - apply (c90_item_lines toy_repr few_items d _ M ltac:(split; vm_compute; discriminate) RD T). rewrite N1, N2. split; reflexivity.
  - assert (F : is_finite (post few_items) = true) by (vm_compute; reflexivity). apply fgtb_f0; auto.
Qed.

(** an announced pre-trimming need not remove anything: the top 0.01 % of 1000 items is no item *)
Definition top_of_nothing : params :=
  mkParams 1000 8 "clicks" 4 false (flit 1 10000) (flit 10 100) f0 None (flit 5 100) (flit 8 10) None.
Theorem c90_announced_top_trimming_removes_items_refuted :
  exists frepr p d text, mk_design p = Ok d /\ readable frepr p /\ design_text frepr d = Ok text /\
    (exists z, shows_percent text "Top " (top_line p) z) /\ trim_count (top p) (n_before p) = 0.
Proof.
  assert (M := computed_counts top_of_nothing 900 900 ltac:(vm_compute; reflexivity)).
  destruct M as (d & M & N & _).
  assert (RD : readable toy_repr top_of_nothing) by (constructor; [|discriminate|exact toy_one_line]; apply one_line_iff; reflexivity).
  destruct (c90_every_design_can_be_printed toy_repr top_of_nothing d None M) as (id & rest & _ & T).
  assert (S : set_salt d None = d) by (apply mk_design_iff in M as [_ ->]; reflexivity). rewrite S in T.
  exists toy_repr, top_of_nothing, d. eexists. split; auto. split; auto. split; [exact T|]. split.
  - apply (c90_percentage_lines toy_repr top_of_nothing d _ M ltac:(split; vm_compute; discriminate) RD T). rewrite N. split; [reflexivity|].
    assert (F : is_finite (top top_of_nothing) = true) by (vm_compute; reflexivity). apply fgtb_f0; auto.
  - symmetry. apply floor_mul_count. vm_compute. reflexivity.
Qed.

(** a trimming of four items can be announced as 0.00 % *)
Definition tiny_percentage : params :=
  mkParams 200000 8 "clicks" 0 false f0 f0 (flit 1 100000) None (flit 5 100) (flit 8 10) None.
Theorem c90_announced_percentage_is_positive_refuted :
  exists frepr p d text, mk_design p = Ok d /\ readable frepr p /\ design_text frepr d = Ok text /\
    shows_percent text "Top and bottom " (post_line p) 0 /\ n_pre d - n_post d = 4.
Proof.
  assert (M := computed_counts tiny_percentage 200000 199996 ltac:(vm_compute; reflexivity)).
  destruct M as (d & M & N1 & N2).
  assert (RD : readable toy_repr tiny_percentage) by (constructor; [|discriminate|exact toy_one_line]; apply one_line_iff; reflexivity).
  destruct (c90_every_design_can_be_printed toy_repr tiny_percentage d None M) as (id & rest & _ & T).
  assert (S : set_salt d None = d) by (apply mk_design_iff in M as [_ ->]; reflexivity). rewrite S in T.
  exists toy_repr, tiny_percentage, d. eexists. split; auto. split; auto. split; [exact T|]. split; [|lia].
  destruct (c90_percentage_lines toy_repr tiny_percentage d _ M ltac:(split; vm_compute; discriminate) RD T) as (_ & _ & P & _).
  assert (L : n_post d < n_pre d) by lia.
  exists "0.00". split; [exists "0", "00"; repeat split; discriminate|].
  apply (says_trimming toy_repr tiny_percentage d _ M RD T). apply (trimming_line_in toy_repr tiny_percentage d _ M T).
  right; right; right. split; [rewrite N2; discriminate|]. split; [exact L|]. left.
  assert (E : percent (post tiny_percentage) = "0.00%") by (vm_compute; reflexivity). rewrite E. reflexivity.
Qed.

(** the text does not tell a design without a salt from one salted with the word None *)
Theorem c90_the_text_shows_whether_items_were_assigned_refuted :
  forall frepr p d, mk_design p = Ok d ->
    design_text frepr (set_salt d None) = design_text frepr (set_salt d (Some "None")).
Proof. intros frepr p d H. destruct (c90_only_the_last_line_depends_on_the_salt frepr p d H) as (b & E). rewrite !E. reflexivity. Qed.

Print Assumptions c90_every_design_can_be_printed.
Print Assumptions c90_only_the_last_line_depends_on_the_salt.
Print Assumptions c90_what_the_text_says.
Print Assumptions c90_crossover_lines.
Print Assumptions c90_item_lines.
Print Assumptions c90_percentage_lines.
Print Assumptions c90_same_text_same_design.
Print Assumptions c90_no_trimming_means_no_percentile_refuted.
Print Assumptions c90_announced_top_trimming_removes_items_refuted.
Print Assumptions c90_announced_percentage_is_positive_refuted.
Print Assumptions c90_the_text_shows_whether_items_were_assigned_refuted.
