(** Properties C14 - C15: pivoting the weekly data. *)
From Coq Require Import ZArith Reals List String Bool Lia Lra Sorting.Sorted.
Require Import Verif.Base Verif.Num Verif.Frame Verif.F64 Verif.ListLib Verif.Design_Model Verif.Design_Spec
  Verif.Design_Proofs Verif.Design_Yaml_Proofs Verif.Design_Props Verif.Periods_Model Verif.Periods_Proofs
  Verif.Rows_Model Verif.Rows_Spec Verif.Rows_Proofs Verif.Pivot_Model Verif.Pivot_Spec Verif.Pivot_Proofs.
Import ListNotations.
Open Scope string_scope.
Open Scope Z_scope.

(** row [r] lies in period [s] of the labelling *)
Definition in_period {K} (lab : Z -> label) (s : string) (r : prow K) : Prop :=
  exists w, p_week r = Some w /\ lab w = Some s.

Lemma row_label_in {K} lab s (r : prow K) : row_label lab r = Some s <-> in_period lab s r.
Proof.
  unfold row_label, in_period. destruct (p_week r) as [w|]; split.
  - eauto.
  - intros (w' & E & ?). now inversion E; subst.
  - discriminate.
  - intros (w' & E & ?). discriminate.
Qed.

Section P.
Context {K : Type} (keqb kleb : K -> K -> bool) (HO : ord keqb kleb).

Lemma test_present p start metrics rows : calm rows -> metrics <> [] ->
  has_period "test" (divide_if_present "pretest" (pretest p)
    (pivot_table keqb kleb (regular_label start (pretest p) (runtime p)) metrics rows)) = true <->
  exists r, In r rows /\ in_period (regular_label start (pretest p) (runtime p)) "test" r.
Proof.
  intros HC HM. rewrite (pivot_table_tab keqb kleb HO) by auto. rewrite divide_if_tab.
  unfold has_period, tab. cbn [t_cols]. rewrite existsb_exists. split.
  - intros ([m s] & H & E). apply String.eqb_eq in E. cbn [snd] in E. subst s.
    apply (cols_at_In keqb kleb HO) in H as (_ & r & Hr & E); auto. exists r. split; auto. now apply row_label_in.
  - intros (r & Hr & E). apply row_label_in in E. destruct metrics as [|m ms]; [congruence|].
    exists (m, "test"). split; [|reflexivity]. apply (cols_at_In keqb kleb HO); auto. split; [now left|eauto].
Qed.

Lemma pivot_rows_tab p d start lab metrics rows t : mk_design p = Ok d -> label_fun p start = Ok lab -> calm rows ->
  pivot_rows keqb kleb p start metrics rows = Ok t ->
  t = tab (cols_at keqb kleb lab metrics rows) (keys_at keqb kleb lab (List.length metrics) rows)
        (fun k c => ndiv (total (is_at keqb lab k (snd c)) (metric_value metrics (fst c)) rows)
                         (Fin (IZR (weeks_of p (snd c))))).
Proof.
  intros H L HC HP. apply mk_design_iff in H as [D _]. unfold pivot_rows in HP. unfold label_fun in L.
  destruct (crossover p) eqn:C.
  - destruct (washout p) as [wash|] eqn:W; [|discriminate]. inversion L; subst lab. inversion HP; subst t. clear L HP.
    destruct (ok_crossover _ D C) as (w & Ew & W1 & W2 & (half & Eh)). rewrite W in Ew. inversion Ew; subst w.
    pose proof (ok_pretest _ D) as H3.
    unfold pivot_crossover. rewrite (pivot_table_tab keqb kleb HO) by auto. rewrite !divide_if_tab.
    apply tab_ext. intros k [m s] _ Hc. apply (cols_at_In keqb kleb HO) in Hc as (_ & r & _ & E); auto.
    unfold row_label in E. destruct (p_week r) as [w0|]; [|discriminate]. cbn [fst snd].
    pose proof (crossover_label_spec start (pretest p) half wash w0 H3 W1 ltac:(lia)) as SP.
    unfold crossover_spec in SP. rewrite <- Eh, E in SP.
    destruct SP as [[SP _]|[[SP _]|[[SP _]|[[SP _]|[[SP _]|[SP _]]]]]]; inversion SP; subst s;
      unfold weeks_of; cbn [String.eqb Ascii.eqb Bool.eqb orb]; rewrite ?W; reflexivity.
  - inversion L; subst lab. clear L. pose proof (ok_pretest _ D) as H3. pose proof (ok_runtime _ D) as H4.
    unfold pivot_regular in HP. cbv zeta in HP.
    destruct (has_period _ _); [|discriminate]. inversion HP; subst t. clear HP.
    rewrite (pivot_table_tab keqb kleb HO) by auto. rewrite divide_if_tab, divide_tab.
    apply tab_ext. intros k [m s] _ Hc. apply (cols_at_In keqb kleb HO) in Hc as (_ & r & _ & E); auto.
    unfold row_label in E. destruct (p_week r) as [w0|]; [|discriminate]. cbn [fst snd].
    pose proof (regular_label_spec start (pretest p) (runtime p) w0 H3 ltac:(lia)) as SP.
    unfold regular_spec in SP. rewrite E in SP.
    destruct SP as [[SP _]|[[SP _]|[SP _]]]; inversion SP; subst s; reflexivity.
Qed.
End P.

(** C14. One row per index value with a labelled week, one column per metric and period, and
    each entry is the period's total divided by the number of weeks of the period. *)
Theorem c14_values_are_weekly_averages :
  forall K (keqb kleb : K -> K -> bool) p d start lab metrics rows t,
    ord keqb kleb -> mk_design p = Ok d -> label_fun p start = Ok lab -> calm rows -> metrics <> [] ->
    pivot_rows keqb kleb p start metrics rows = Ok t ->
    (forall k, In k (map fst (t_rows t)) <-> exists r s, In r rows /\ p_key r = k /\ in_period lab s r) /\
    StronglySorted (fun a b => kleb a b = true /\ a <> b) (map fst (t_rows t)) /\
    (forall m s, In (m, s) (t_cols t) <-> In m metrics /\ exists r, In r rows /\ in_period lab s r) /\
    (forall k m s, In k (map fst (t_rows t)) -> In (m, s) (t_cols t) ->
       exists n, (0 < n)%nat /\ has_card (fun w => lab w = Some s) n /\
       forall cond, (forall r, cond r = true <-> p_key r = k /\ in_period lab s r) ->
         entry keqb t k m s = Some (ndiv (total cond (metric_value metrics m) rows) (Fin (INR n)))).
Proof.
  intros K keqb kleb p d start lab metrics rows t HO H L HC HM HP.
  assert (HN : (0 < List.length metrics)%nat) by (destruct metrics; [congruence|simpl; lia]).
  rewrite (pivot_rows_tab keqb kleb HO p d start lab metrics rows t H L HC HP). unfold tab at 1 2 3 4 5. cbn [t_rows t_cols].
  rewrite map_map. cbn [fst]. rewrite map_id.
  split; [|split; [|split]].
  - intros k. rewrite (keys_at_In keqb kleb HO) by auto.
    split; intros (r & s & A & B & E); exists r, s; rewrite row_label_in in *; auto.
  - apply (keys_at_sorted keqb kleb HO).
  - intros m s. rewrite (cols_at_In keqb kleb HO) by auto.
    split; intros (A & r & B & E); (split; [auto|exists r; rewrite row_label_in in *; auto]).
  - intros k m s Hk Hc. assert (Hc' := Hc). apply (cols_at_In keqb kleb HO) in Hc' as (_ & r & _ & E); auto.
    apply row_label_in in E as (w & _ & Ew).
    destruct (weeks_of_card p d lab start s H L (ex_intro _ w Ew)) as [CA PO].
    exists (Z.to_nat (weeks_of p s)). split; [lia|]. split; auto. intros cond Hcond.
    rewrite (entry_tab keqb kleb HO) by auto. cbn [fst snd]. do 2 f_equal.
    + unfold total. clear - HO Hcond. induction rows as [|r rows IH]; simpl; auto. rewrite IH.
      replace (is_at keqb lab k s r) with (cond r); auto.
      apply eq_true_iff_eq. rewrite Hcond, (is_at_iff keqb kleb HO), row_label_in. reflexivity.
    + f_equal. rewrite INR_IZR_INZ, Z2Nat.id by lia. reflexivity.
Qed.

(** rows outside every period have no influence at all *)
Theorem c14_unlabelled_rows_do_not_matter :
  forall K (keqb kleb : K -> K -> bool) p start lab metrics rows keep,
    label_fun p start = Ok lab ->
    (forall r, In r rows -> keep r = false -> forall s, ~ in_period lab s r) ->
    pivot_rows keqb kleb p start metrics (filter keep rows) = pivot_rows keqb kleb p start metrics rows.
Proof.
  intros K keqb kleb p start lab metrics rows keep L HK.
  assert (E : labelled lab (filter keep rows) = labelled lab rows).
  { unfold labelled. induction rows as [|r rows IH]; simpl; auto. destruct (keep r) eqn:KR; simpl.
    - f_equal. apply IH. intros. apply HK; auto. now right.
    - rewrite IH by (intros; apply HK; auto; now right).
      destruct (row_label lab r) as [s|] eqn:X; auto. apply row_label_in in X.
      destruct (HK r (or_introl eq_refl) KR s X). }
  unfold pivot_rows. unfold label_fun in L. destruct (crossover p).
  - destruct (washout p) as [w|]; auto. inversion L; subst lab.
    unfold pivot_crossover, pivot_table, agged. now rewrite E.
  - inversion L; subst lab. unfold pivot_regular, pivot_table, agged. now rewrite E.
Qed.

(** a valid design's pivot fails exactly for a regular design without data in the test weeks *)
Theorem c14_fails_iff_no_test_week :
  forall K (keqb kleb : K -> K -> bool) p d start lab metrics rows,
    ord keqb kleb -> mk_design p = Ok d -> label_fun p start = Ok lab -> calm rows -> metrics <> [] ->
    ((exists e, pivot_rows keqb kleb p start metrics rows = Err e) <->
     crossover p = false /\ forall r w, In r rows -> p_week r = Some w -> ~ (start <= w < start + runtime p)).
Proof.
  intros K keqb kleb p d start lab metrics rows HO H L HC HM. apply mk_design_iff in H as [D _].
  unfold pivot_rows. unfold label_fun in L. destruct (crossover p) eqn:C.
  - destruct (washout p); [|discriminate]. split; [intros (e & E); discriminate|intros [? _]; discriminate].
  - pose proof (ok_pretest _ D) as H3. pose proof (ok_runtime _ D) as H4.
    pose proof (test_present keqb kleb HO p start metrics rows HC HM) as TP. unfold pivot_regular. cbv zeta.
    destruct (has_period _ _).
    + split; [intros (e & E); discriminate|]. intros (_ & HX). exfalso.
      destruct (proj1 TP eq_refl) as (r & Hr & w & Ew & E). apply (HX r w Hr Ew).
      apply (regular_label_iff start (pretest p) (runtime p) w) in E; [exact E|lia|lia].
    + split; [|eauto]. intros _. split; auto. intros r w Hr Ew HX.
      assert (false = true); [|discriminate]. apply TP. exists r. split; auto. exists w. split; auto.
      apply (regular_label_iff start (pretest p) (runtime p) w); [lia|lia|exact HX].
Qed.

Definition ex_reg : params :=
  mkParams 1000 2 "clicks" 1 false (flit 1 10) (flit 5 100) (flit 1 10) None (flit 5 100) (flit 8 10) None.
Example c14_example :
  exists d lab t, mk_design ex_reg = Ok d /\ label_fun ex_reg 10 = Ok lab /\
  let rows := [mkP ("a", [1]) (Some 9) [Fin 4]; mkP ("a", [1]) (Some 10) [Fin 1]; mkP ("a", [1]) (Some 11) [Fin 2]; mkP ("b", [0]) (Some 12) [Fin 5]] in
  calm rows /\ pivot_rows akeqb akleb ex_reg 10 ["clicks"] rows = Ok t /\
  map fst (t_rows t) = [("a", [1])] /\ t_cols t = [("clicks", "pretest"); ("clicks", "test")] /\
  entry akeqb t ("a", [1]) "clicks" "test" = Some (Fin ((1 + (2 + 0)) / 2)).
Proof.
  eexists (mkDesignRec ex_reg 850 680), _, _. split; [apply mk_design_check; vm_compute; reflexivity|].
  split; [reflexivity|]. cbv zeta. split; [|split; [|split; [|split]]].
  - intros r Hr. repeat (destruct Hr as [<-|Hr]; [constructor; [split; discriminate|constructor]|]). destruct Hr.
  - reflexivity.
  - reflexivity.
  - reflexivity.
  - cbn -[ndiv]. rewrite ndiv_fin by lra. reflexivity.
Qed.

(* ------------------------------------------------------------------ *)
(** C15. *)
Record pivot_call := mkCall {
  c_p : params; c_start : Z; c_metrics : list string; c_item : string; c_week : string;
  c_treat : option string; c_period : string }.
Definition run_call (f : frame) (c : pivot_call) : frame * result (table akey) :=
  pivot_time_assignment f (c_p c) (c_start c) (c_metrics c) (c_item c) (c_week c) (c_treat c) (c_period c).
(** a sequence of calls on the same frame *)
Fixpoint run_calls (f : frame) (cs : list pivot_call) : frame * list (result (table akey)) :=
  match cs with
  | [] => (f, [])
  | c :: r => let '(f', t) := run_call f c in let '(f'', ts) := run_calls f' r in (f'', t :: ts)
  end.

Theorem c15_successful_pivot_leaves_the_frame_unchanged f c t :
  snd (run_call f c) = Ok t -> fst (run_call f c) = f.
Proof.
  unfold run_call, pivot_time_assignment. destruct (has_col (c_period c) f) eqn:E; [discriminate|].
  destruct (existsb _ _); [discriminate|]. destruct (label_fun _ _) as [lab|e]; [|discriminate].
  destruct (pivot_rows _ _ _ _ _ _) as [t'|e]; [|discriminate]. cbn [fst snd]. intros _.
  rewrite set_col_fresh by auto. now apply drop_fresh_app.
Qed.

(** a sequence of calls that all succeed gives the results of the calls made on their own *)
Theorem c15_successful_calls_are_independent f cs ts :
  snd (run_calls f cs) = map Ok ts ->
  fst (run_calls f cs) = f /\ Forall2 (fun c t => snd (run_call f c) = Ok t) cs ts.
Proof.
  revert f ts. induction cs as [|c cs IH]; intros f ts; simpl.
  - destruct ts; [|discriminate]. auto.
  - destruct (run_call f c) as [f' r] eqn:E. destruct (run_calls f' cs) as [f'' rs] eqn:E'. cbn [fst snd].
    destruct ts as [|t ts]; [discriminate|]. cbn [map]. intros H. inversion H; subst.
    assert (f' = f). { assert (X := c15_successful_pivot_leaves_the_frame_unchanged f c t). rewrite E in X. now apply X. }
    subst f'. destruct (IH f ts) as [A B]; [now rewrite E'|]. rewrite E' in A. split; auto. constructor; auto. now rewrite E.
Qed.

(** the column checks *)
Theorem c15_argument_errors_leave_the_frame_unchanged f c :
  (has_col (c_period c) f = true \/
   exists x, has_col x f = false /\
     (x = c_item c \/ x = c_week c \/ In x (c_metrics c) \/ c_treat c = Some x)) ->
  exists e, run_call f c = (f, Err e).
Proof.
  unfold run_call, pivot_time_assignment. intros [E|(x & E & H)]; [rewrite E; eauto|].
  destruct (has_col (c_period c) f); [eauto|].
  replace (existsb _ _) with true; [eauto|]. symmetry. apply existsb_exists. exists x.
  rewrite E. split; auto. destruct H as [->|[->|[H| ->]]]; [now left|right; now left| |]; right; right; apply in_or_app; auto.
  right. now left.
Qed.

(** after a failed pivot the helper column stays in the caller's frame, and every later call
    with the same helper column is rejected *)
Theorem c15_failed_pivot_blocks_the_frame f c d e :
  mk_design (c_p c) = Ok d ->
  has_col (c_period c) f = false ->
  (forall x, x = c_item c \/ x = c_week c \/ In x (c_metrics c) \/ c_treat c = Some x -> has_col x f = true) ->
  snd (run_call f c) = Err e ->
  fst (run_call f c) <> f /\
  forall c', c_period c' = c_period c -> exists e', run_call (fst (run_call f c)) c' = (fst (run_call f c), Err e').
Proof.
  intros HD HP HX HE.
  assert (K : exists v, fst (run_call f c) = (f ++ [(c_period c, v)])%list).
  { unfold run_call, pivot_time_assignment in *. rewrite HP in *.
    destruct (existsb _ _) eqn:E.
    - exfalso. apply existsb_exists in E as (x & Hx & E). apply negb_true_iff in E. rewrite HX in E; [discriminate|].
      destruct Hx as [<-|[<-|Hx]]; auto. apply in_app_or in Hx as [Hx|Hx]; auto.
      destruct (c_treat c); [destruct Hx as [<-|[]]; auto|destruct Hx].
    - destruct (label_fun (c_p c) (c_start c)) as [lab|e'] eqn:EL.
      + destruct (pivot_rows _ _ _ _ _ _) as [t'|e']; [discriminate|]. cbn [fst]. rewrite set_col_fresh by auto. eauto.
      + exfalso. unfold label_fun in EL. apply mk_design_iff in HD as [D _]. destruct (crossover (c_p c)) eqn:C; [|discriminate].
        destruct (ok_crossover _ D C) as (w & Ew & _). rewrite Ew in EL. discriminate. }
  destruct K as (v & ->). split.
  - intros X. apply (f_equal (@List.length _)) in X. rewrite app_length in X. simpl in X. lia.
  - intros c' Ec. apply c15_argument_errors_leave_the_frame_unchanged. left. rewrite Ec.
    unfold has_col, columns. rewrite map_app, existsb_app. simpl. now rewrite String.eqb_refl, orb_true_r.
Qed.

(** such a failure exists: pivoting data without test weeks is not atomic *)
Definition ex_frame : frame := [("item", [CStr "a"]); ("week", [CZ 5]); ("clicks", [CNum (Fin 1)])].
Definition ex_call (start : Z) : pivot_call := mkCall ex_reg start ["clicks"] "item" "week" None "time_period".
Theorem c15_failed_calls_are_atomic_refuted :
  exists f c c' e t, snd (run_call f c) = Err e /\ fst (run_call f c) <> f /\
    snd (run_call f c') = Ok t /\ exists e', snd (run_call (fst (run_call f c)) c') = Err e'.
Proof.
  exists ex_frame, (ex_call 100), (ex_call 5). eexists. eexists. split; [reflexivity|]. split; [discriminate|].
  split; [reflexivity|]. eexists. reflexivity.
Qed.

Example c15_example : exists ts, snd (run_calls ex_frame [ex_call 5; ex_call 4; ex_call 5]) = map Ok ts /\ List.length ts = 3%nat.
Proof. eexists [_; _; _]. split; reflexivity. Qed.

Print Assumptions c14_values_are_weekly_averages.
Print Assumptions c14_unlabelled_rows_do_not_matter.
Print Assumptions c14_fails_iff_no_test_week.
Print Assumptions c15_successful_pivot_leaves_the_frame_unchanged.
Print Assumptions c15_successful_calls_are_independent.
Print Assumptions c15_argument_errors_leave_the_frame_unchanged.
Print Assumptions c15_failed_pivot_blocks_the_frame.
Print Assumptions c15_failed_calls_are_atomic_refuted.
