(** Proofs about the way of the experiment data from the raw rows to the analysis. *)
From Coq Require Import ZArith Reals List String Bool Lia Lra Permutation Sorting.Sorted.
From Flocq Require Import Core BinarySingleNaN.
Require Import Verif.Base Verif.Num Verif.Frame Verif.F64 Verif.ListLib Verif.Design_Model
  Verif.Design_Proofs Verif.Rows_Model Verif.Rows_Spec Verif.Rows_Proofs Verif.Rows_Props
  Verif.Checks_Model Verif.Checks_Spec Verif.Checks_Proofs Verif.Checks_Props
  Verif.Periods_Model Verif.Periods_Proofs Verif.Periods_Props
  Verif.Pivot_Model Verif.Pivot_Spec
  Verif.Pipeline_Model Verif.Pipeline_Spec Verif.Pipeline_Proofs Verif.Experiment_Props Verif.Journey_Model.
Import ListNotations.
Open Scope string_scope.
Open Scope list_scope.
Open Scope Z_scope.

(** *** The value of a column in a raw row *)
(** 1 for positive values, else 0 *)
Definition one_if_positive (x : num) : num :=
  match x with
  | Fin r => if Rlt_dec 0 r then Fin 1 else Fin 0
  | PInf => Fin 1
  | NInf | NaN => Fin 0
  end.
Definition raw_metric (metrics : list string) (m : string) (o : obs) : num :=
  match assoc String.eqb m (combine metrics (o_vals o)) with Some v => v | None => NaN end.
(** a metric, or the indicator of the metric from which an "at least one" column is made *)
Definition raw_value (metrics : list string) (alo : list (string * string)) (c : string) (o : obs) : num :=
  if in_dec string_dec c metrics then raw_metric metrics c o
  else match find (fun mn => String.eqb (snd mn) c) alo with
       | Some mn => one_if_positive (raw_metric metrics (fst mn) o)
       | None => NaN
       end.

Lemma indicator_one x : indicator x = one_if_positive x.
Proof.
  destruct x as [r| | |]; unfold indicator, one_if_positive; cbn [nltb]; auto.
  destruct (Rlt_dec 0 r); [rewrite Rlt_bool_true by auto|rewrite Rlt_bool_false by lra]; reflexivity.
Qed.

Lemma get_num_assoc m l : get_num m l = assoc String.eqb m l.
Proof. induction l as [|[c v] l IH]; cbn; auto. now rewrite IH. Qed.

Lemma assoc_combine_In m metrics (vals : list num) : In m metrics -> List.length vals = List.length metrics ->
  exists v, assoc String.eqb m (combine metrics vals) = Some v /\ In v vals.
Proof.
  revert vals. induction metrics as [|c metrics IH]; intros [|v vals] H L; cbn in *; try tauto; try discriminate.
  destruct (String.eqb_spec m c) as [->|N]; eauto.
  destruct H as [->|H]; [congruence|]. destruct (IH vals H ltac:(lia)) as (w & -> & ?). eauto.
Qed.
Lemma assoc_combine_None m metrics (vals : list num) : ~ In m metrics -> assoc String.eqb m (combine metrics vals) = None.
Proof.
  revert vals. induction metrics as [|c metrics IH]; intros [|v vals] H; cbn in *; auto.
  destruct (String.eqb_spec m c) as [->|N]; [tauto|]. apply IH. tauto.
Qed.

Lemma get_num_set m c v l : get_num m (set_num c v l) = if String.eqb m c then Some v else get_num m l.
Proof.
  induction l as [|[c' v'] l IH]; cbn.
  - destruct (String.eqb_spec m c); auto.
  - destruct (String.eqb_spec c c') as [->|N]; cbn.
    + destruct (String.eqb_spec m c'); auto.
    + rewrite IH. destruct (String.eqb_spec m c'); auto. destruct (String.eqb_spec m c); congruence.
Qed.
Lemma names_set c v l : map fst (set_num c v l) = if existsb (String.eqb c) (map fst l) then map fst l else map fst l ++ [c].
Proof.
  induction l as [|[c' v'] l IH]; cbn; auto. destruct (String.eqb_spec c c') as [->|N]; cbn; auto.
  rewrite IH. destruct (existsb _ _); reflexivity.
Qed.

(** the columns after the "at least one" step *)
Lemma at_least_one_value alo metrics : NoDup metrics -> fresh_indicators metrics alo ->
  forall l cols, map fst l = metrics -> at_least_one_row alo l = Ok cols ->
  map fst cols = metrics ++ map snd alo /\
  forall c, get_num c cols =
    if in_dec string_dec c metrics then get_num c l
    else match find (fun mn => String.eqb (snd mn) c) alo with
         | Some mn => option_map one_if_positive (get_num (fst mn) l)
         | None => None
         end.
Proof.
  intros NM [F1 F2] l cols ML H.
  assert (G : forall alo' done l' cols', NoDup (done ++ map snd alo') -> (forall m n, In (m, n) alo' -> In m metrics /\ ~ In n metrics) ->
     (forall n, In n done -> ~ In n metrics) ->
     map fst l' = metrics ++ done -> at_least_one_row alo' l' = Ok cols' ->
     map fst cols' = metrics ++ done ++ map snd alo' /\
     forall c, get_num c cols' = if in_dec string_dec c (metrics ++ done) then get_num c l'
        else match find (fun mn => String.eqb (snd mn) c) alo' with
         | Some mn => option_map one_if_positive (get_num (fst mn) l')
         | None => None
         end).
  { clear - NM. induction alo' as [|[m n] alo' IH]; intros done l' cols' ND HF HD ML H.
    - cbn in H. inversion H; subst cols'. split; [cbn; now rewrite app_nil_r|]. intros c. destruct (in_dec _ _ _) as [I|I]; auto.
      cbn. rewrite get_num_assoc. rewrite <- ML in I. clear - I. induction l' as [|[c' v] l IH]; cbn in *; auto.
      destruct (String.eqb_spec c c'); [subst; tauto|]. apply IH. tauto.
    - cbn [at_least_one_row] in H. destruct (HF m n (or_introl eq_refl)) as [Hm Hn].
      destruct (get_num m l') as [x|] eqn:GX; [|discriminate].
      assert (NI : ~ In n (metrics ++ done)).
      { intros I. apply in_app_or in I as [I|I]; [tauto|]. cbn in ND. apply NoDup_remove_2 in ND. apply ND, in_or_app. auto. }
      assert (ML2 : map fst (set_num n (indicator x) l') = metrics ++ (done ++ [n])).
      { rewrite names_set, ML. replace (existsb (String.eqb n) (metrics ++ done)) with false; [now rewrite app_assoc|].
        symmetry. apply existsb_false_iff. intros y Hy. apply String.eqb_neq. intros <-. auto. }
      destruct (IH (done ++ [n]) _ cols' ltac:(rewrite <- app_assoc; exact ND) ltac:(intros; apply HF; now right)
        ltac:(intros y Hy; apply in_app_or in Hy as [Hy|[<-|[]]]; auto) ML2 H) as [A B].
      split; [rewrite A, <- app_assoc; reflexivity|]. intros c. rewrite B. clear B.
      destruct (in_dec string_dec c (metrics ++ done)) as [I|I].
      + destruct (in_dec string_dec c (metrics ++ done ++ [n])) as [J|J]; [|exfalso; apply J; rewrite app_assoc; apply in_or_app; auto].
        rewrite get_num_set. destruct (String.eqb_spec c n); [subst; tauto|reflexivity].
      + cbn [find snd fst]. destruct (String.eqb_spec n c) as [<-|N].
        * destruct (in_dec string_dec n (metrics ++ done ++ [n])) as [J|J]; [|exfalso; apply J; apply in_or_app; right; apply in_or_app; right; now left].
          rewrite get_num_set, String.eqb_refl. cbn [fst]. rewrite GX. cbn. now rewrite indicator_one.
        * destruct (in_dec string_dec c (metrics ++ done ++ [n])) as [J|J].
          { exfalso. apply in_app_or in J as [J|J]; [apply I, in_or_app; auto|].
            apply in_app_or in J as [J|[->|[]]]; [apply I, in_or_app; auto|congruence]. }
          destruct (find _ alo') as [[m' n']|] eqn:FD; auto. apply find_some in FD as [FD _].
          destruct (HF m' n' (or_intror FD)) as [Hm' _]. cbn [fst]. rewrite get_num_set.
          destruct (String.eqb_spec m' n); [subst; tauto|reflexivity]. }
  destruct (G alo [] l cols F2 F1 (fun n I => False_ind _ I) ltac:(now rewrite app_nil_r) H) as [A B].
  split; auto. intros c. rewrite B. now rewrite app_nil_r.
Qed.

Definition col_of (cols : list (string * num)) (c : string) : num := match get_num c cols with Some x => x | None => NaN end.

Lemma prepared_cell metrics alo o cols c : NoDup metrics -> fresh_indicators metrics alo ->
  List.length (o_vals o) = List.length metrics ->
  at_least_one_row alo (combine metrics (o_vals o)) = Ok cols ->
  In c (metrics ++ map snd alo) ->
  get_num c cols = Some (raw_value metrics alo c o).
Proof.
  intros NM FI L H I.
  assert (ML : map fst (combine metrics (o_vals o)) = metrics).
  { clear - L. revert L. generalize (o_vals o). induction metrics; intros [|v vals]; cbn; intros L; try discriminate; auto. f_equal. apply IHmetrics. lia. }
  destruct (at_least_one_value alo metrics NM FI _ _ ML H) as [_ G]. rewrite G. clear G. unfold raw_value, raw_metric.
  destruct (in_dec _ _ _) as [J|J].
  - rewrite get_num_assoc. destruct (assoc_combine_In c metrics (o_vals o) J L) as (v & -> & _). reflexivity.
  - apply in_app_or in I as [I|I]; [tauto|]. apply in_map_iff in I as ([m n] & E & I). cbn in E. subst n.
    destruct (find _ alo) as [[m' n']|] eqn:FD.
    + apply find_some in FD as [FD _]. destruct FI as [F1 _]. destruct (F1 m' n' FD) as [Hm _]. cbn [fst].
      rewrite get_num_assoc. destruct (assoc_combine_In m' metrics (o_vals o) Hm L) as (v & -> & _). reflexivity.
    + exfalso. apply (find_none _ _ FD) in I. cbn in I. now rewrite String.eqb_refl in I.
Qed.

(** *** Totals *)
Lemma nan0_eq x : match x with Fin r => Fin r | PInf => PInf | NInf => NInf | NaN => Fin 0 end = nan0 x.
Proof. destruct x; reflexivity. Qed.
Lemma total_app {R} (c : R -> bool) v l m : total c v (l ++ m) = nadd (total c v l) (total c v m).
Proof.
  unfold total. induction l as [|r l IH]; cbn [app fold_right]; [now rewrite nadd_0_l|]. rewrite IH. apply nadd_assoc.
Qed.
Lemma total_perm {R} (c : R -> bool) v l m : Permutation l m -> total c v l = total c v m.
Proof.
  unfold total. induction 1; cbn [fold_right]; auto; try congruence. rewrite !nadd_assoc. f_equal. apply nadd_comm.
Qed.
Lemma total_ext {R} (c c' : R -> bool) v v' l :
  (forall r, In r l -> c r = c' r /\ (c r = true -> nan0 (v r) = nan0 (v' r))) -> total c v l = total c' v' l.
Proof.
  unfold total. induction l as [|r l IH]; intros H; cbn [fold_right]; auto. rewrite IH by (intros; apply H; now right). f_equal.
  destruct (H r (or_introl eq_refl)) as [E V]. rewrite <- E. destruct (c r); auto. rewrite !nan0_eq. now apply V.
Qed.
Lemma total_map {A B} (f : A -> B) c v l : total c v (map f l) = total (fun a => c (f a)) (fun a => v (f a)) l.
Proof. unfold total. induction l as [|a l IH]; cbn [map fold_right]; auto. now rewrite IH. Qed.
Lemma total_none {R} (c : R -> bool) v l : (forall r, In r l -> c r = true -> nan0 (v r) = Fin 0) -> total c v l = Fin 0.
Proof.
  unfold total. induction l as [|r l IH]; intros H; cbn [fold_right]; auto. rewrite IH by (intros; apply H; auto; now right).
  rewrite nadd_comm, nadd_0_l. destruct (c r) eqn:E; auto. rewrite nan0_eq. exact (H r (or_introl eq_refl) E).
Qed.
Lemma total_flat {A B} (g : A -> list B) (c : B -> bool) v (c' : A -> bool) v' l :
  (forall a, In a l -> total c v (g a) = if c' a then nan0 (v' a) else Fin 0) ->
  total c v (flat_map g l) = total c' v' l.
Proof.
  induction l as [|a l IH]; intros H; cbn [flat_map]; [reflexivity|]. rewrite total_app, IH by (intros; apply H; now right).
  rewrite (H a (or_introl eq_refl)). unfold total. cbn [fold_right]. now rewrite nan0_eq.
Qed.

Lemma raw_value_zero metrics alo c i d k : In c (metrics ++ map snd alo) -> (forall m n, In (m, n) alo -> In m metrics) ->
  k = List.length metrics -> raw_value metrics alo c (mkObs i d (repeat (Fin 0) k)) = Fin 0.
Proof.
  intros I F ->. assert (Z : forall m, In m metrics -> raw_metric metrics m (mkObs i d (repeat (Fin 0) (List.length metrics))) = Fin 0).
  { intros m Hm. unfold raw_metric. cbn [o_vals]. destruct (assoc_combine_In m metrics (repeat (Fin 0) (List.length metrics)) Hm ltac:(apply repeat_length)) as (v & -> & V).
    now apply repeat_spec in V. }
  unfold raw_value. destruct (in_dec _ _ _) as [J|J]; [auto|]. apply in_app_or in I as [I|I]; [tauto|].
  destruct (find _ alo) as [[m n]|] eqn:FD.
  - apply find_some in FD as [FD _]. cbn [fst]. rewrite Z by eauto. cbn. destruct (Rlt_dec 0 0); [lra|reflexivity].
  - exfalso. apply in_map_iff in I as ([m n] & E & I). apply (find_none _ _ FD) in I. cbn in *. subst. now rewrite String.eqb_refl in I.
Qed.
Lemma raw_value_nan metrics alo c i d k : nan0 (raw_value metrics alo c (mkObs i d (repeat NaN k))) = Fin 0.
Proof.
  assert (Z : forall m, raw_metric metrics m (mkObs i d (repeat NaN k)) = NaN).
  { intros m. unfold raw_metric. cbn [o_vals]. revert k. induction metrics as [|x l IH]; intros [|k]; cbn; auto.
    destruct (String.eqb m x); auto. }
  unfold raw_value. destruct (in_dec _ _ _) as [J|J]; [now rewrite Z|]. destruct (find _ alo) as [[m n]|]; auto. now rewrite Z.
Qed.
Lemma raw_value_fill metrics alo c o : nan0 (raw_value metrics alo c (fill0 o)) = nan0 (raw_value metrics alo c o).
Proof.
  assert (Z : forall m, nan0 (raw_metric metrics m (fill0 o)) = nan0 (raw_metric metrics m o) /\
     one_if_positive (raw_metric metrics m (fill0 o)) = one_if_positive (raw_metric metrics m o)).
  { intros m. unfold raw_metric, fill0. cbn [o_vals]. generalize (o_vals o). induction metrics as [|x l IH]; intros [|v vals]; cbn; auto.
    destruct (String.eqb m x); auto. destruct v; cbn; auto. destruct (Rlt_dec 0 0); [lra|auto]. }
  unfold raw_value. destruct (in_dec _ _ _) as [J|J]; [apply Z|]. destruct (find _ alo) as [[m n]|]; auto. f_equal. apply Z.
Qed.

(** *** The rows of the prepared data *)
(** the rows that the merge with the assignment makes of one row *)
Definition assigned_rows (lab : Z -> label) (assigned : list (string * Z)) (rc : wrow * list (string * num)) : list erow :=
  map (fun ia => mkE (o_item (w_obs (fst rc))) (o_date (w_obs (fst rc))) (snd rc)
                   (w_week (fst rc)) (w_start (fst rc)) (lab (w_week (fst rc))) (snd ia))
    (filter (fun ia => String.eqb (fst ia) (o_item (w_obs (fst rc)))) assigned).

Lemma prepared_steps by_date binom outer perf assigned d metrics start concluded neg alo skip out :
  (forall l, Permutation (outer l) l) ->
  prepare_experiment by_date binom outer perf assigned d metrics start concluded neg alo skip = Ok out ->
  exists first lab merged wc,
    Permutation merged (perf ++ map (fun i => mkObs i first (repeat NaN (List.length metrics))) (missing_items perf assigned)) /\
    label_fun (par d) 0 = Ok lab /\
    Forall2 (fun o rc => o_item (w_obs (fst rc)) = o_item o /\ o_date (w_obs (fst rc)) = o_date o /\
                         w_week (fst rc) = week_id start (o_date o) /\
                         at_least_one_row alo (combine metrics (o_vals o)) = Ok (snd rc))
      (fill_rows (List.length metrics) merged) wc /\
    out = flat_map (assigned_rows lab assigned) wc.
Proof.
  intros HP H. unfold prepare_experiment in H.
  apply bind_ok in H as (u1 & _ & H). apply bind_ok in H as (first & _ & H).
  apply bind_ok in H as (filled & H3 & H). unfold fill_missing_rows_with_zeros in H3.
  apply bind_ok in H3 as (u2 & _ & H3). inversion H3; subst filled; clear H3.
  apply bind_ok in H as (lab & H4 & H). apply bind_ok in H as (wc & H5 & H).
  apply bind_ok in H as ([] & _ & H). match type of H with Ok ?x = _ => assert (HO : x = out) by congruence end.
  exists first, lab. eexists. exists wc. split; [apply HP|]. split; [exact H4|]. split; [|rewrite <- HO; reflexivity].
  apply mapM_ok in H5. cbn [add_weeks] in H5. revert H5. generalize (fill_rows (List.length metrics)
    (outer (perf ++ map (fun i => mkObs i first (repeat NaN (List.length metrics))) (missing_items perf assigned)))).
  clear. intros l. revert wc. induction l as [|o l IH]; intros wc H; cbn [map] in H; inversion H as [|? rc ? wc' E F]; subst; constructor; auto.
  apply bind_ok in E as (c & E1 & E2). inversion E2; subst rc. cbn in *. auto.
Qed.

Lemma flat_map_NoDup_each {A B C} (f : B -> C) (g : A -> list B) l a : NoDup (map f (flat_map g l)) -> In a l -> NoDup (map f (g a)).
Proof.
  induction l as [|x l IH]; intros N I; [destruct I|]. cbn [flat_map] in N. rewrite map_app in N.
  destruct I as [->|I].
  - clear IH. revert N. generalize (map f (flat_map g l)). generalize (map f (g a)). clear. intros u v N. induction u as [|x u IH]; constructor.
    + inversion N; subst. intros I. apply H1, in_or_app. auto.
    + apply IH. now inversion N.
  - apply IH; auto. clear - N. revert N. generalize (map f (flat_map g l)). generalize (map f (g x)). intros u v N. induction u; auto. inversion N; auto.
Qed.

Section Prepared.
Context by_date binom outer perf assigned d metrics start concluded neg alo skip out
  (HP : forall l, Permutation (outer l) l) (NM : NoDup metrics) (FI : fresh_indicators metrics alo)
  (HL : forall r, In r perf -> List.length (o_vals r) = List.length metrics)
  (HS : ~ In "no_duplicate_items_per_date" skip)
  (H : prepare_experiment by_date binom outer perf assigned d metrics start concluded neg alo skip = Ok out).

Lemma prepared_keys_once : NoDup (map (fun r => (e_item r, e_date r)) out).
Proof. exact (proj2 (c35_one_row_per_assigned_item_and_date _ _ _ _ _ _ _ _ _ _ _ _ _ HP HS H)). Qed.

Lemma assigned_once i a : In (i, a) assigned -> filter (fun ia => String.eqb (fst ia) i) assigned = [(i, a)].
Proof.
  intros I.
  destruct (c35_one_row_per_assigned_item_and_date _ _ _ _ _ _ _ _ _ _ _ _ _ HP HS H) as [EX ND].
  assert (NE : perf <> []) by (apply prepare_experiment_ok in H as (_ & X & _); auto).
  destruct perf as [|o0 perf'] eqn:EP; [congruence|]. rewrite <- EP in *.
  destruct (EX i (o_date o0)) as (r & Hr & Er & Dr); [eauto|exists o0; split; [rewrite EP; now left|reflexivity]|].
  destruct (prepared_steps _ _ _ _ _ _ _ _ _ _ _ _ _ HP H) as (first & lab & merged & wc & _ & _ & _ & EO).
  rewrite EO in Hr. apply in_flat_map in Hr as (rc & Hrc & Hr).
  assert (N1 := flat_map_NoDup_each (fun r => (e_item r, e_date r)) (assigned_rows lab assigned) wc rc ltac:(rewrite <- EO; exact ND) Hrc).
  unfold assigned_rows in *. apply in_map_iff in Hr as (ia & <- & Hia). cbn in Er. rewrite Er in *.
  assert (J : In (i, a) (filter (fun ia => String.eqb (fst ia) i) assigned)) by (apply filter_In; split; auto; apply String.eqb_refl).
  rewrite map_map in N1. cbn in N1. clear - N1 J. destruct (filter _ _) as [|x [|y l]]; [destruct J| |].
  - destruct J as [->|[]]. reflexivity.
  - cbn in N1. inversion N1; subst. exfalso. apply H1. now left.
Qed.

(** the column of the prepared data, one raw row at a time *)
Lemma prepared_total i a c (P : Z -> bool) : In (i, a) assigned -> In c (metrics ++ map snd alo) ->
  total (fun r => String.eqb (e_item r) i && Z.eqb (e_arm r) a && P (e_date r)) (fun r => col_of (e_cols r) c) out =
  total (fun o => String.eqb (o_item o) i && P (o_date o)) (raw_value metrics alo c) perf.
Proof.
  intros I IC. destruct (prepared_steps _ _ _ _ _ _ _ _ _ _ _ _ _ HP H) as (first & lab & merged & wc & PM & _ & F & EO).
  assert (A1 := assigned_once i a I). rewrite EO. clear EO.
  assert (LM : forall o, In o (fill_rows (List.length metrics) merged) -> List.length (o_vals o) = List.length metrics).
  { intros o Ho. apply (Permutation_in _ (fill_rows_perm _ _)) in Ho. apply in_app_or in Ho as [Ho|Ho].
    - apply in_map_iff in Ho as (o' & <- & Ho). unfold fill0. cbn. rewrite map_length.
      apply (Permutation_in _ PM) in Ho. apply in_app_or in Ho as [Ho|Ho]; auto.
      apply in_map_iff in Ho as (j & <- & _). cbn. apply repeat_length.
    - apply in_map_iff in Ho as (j & <- & _). cbn. apply repeat_length. }
  transitivity (total (fun o => String.eqb (o_item o) i && P (o_date o)) (raw_value metrics alo c) (fill_rows (List.length metrics) merged)).
  - revert F LM. generalize (fill_rows (List.length metrics) merged). intros l F LM. induction F as [|o rc l wc (E1 & E2 & E3 & E4) F IH]; [reflexivity|].
    cbn [flat_map]. rewrite total_app, IH by (intros; apply LM; now right).
    unfold total at 3. cbn [fold_right]. fold (total (fun o => String.eqb (o_item o) i && P (o_date o)) (raw_value metrics alo c) l). f_equal.
    unfold assigned_rows. rewrite total_map. cbn [e_item e_date e_arm e_cols]. rewrite E1, E2.
    destruct (String.eqb_spec (o_item o) i) as [->|N]; cbn [andb].
    + rewrite A1. unfold total. cbn [fold_right snd]. rewrite Z.eqb_refl, nadd_comm, nadd_0_l. cbn [andb].
      destruct (P (o_date o)); auto. rewrite !nan0_eq. unfold col_of.
      rewrite (prepared_cell metrics alo o (snd rc) c); auto. apply LM. now left.
    + apply total_none. discriminate.
  - rewrite (total_perm _ _ _ _ (fill_rows_perm _ _)), total_app, !total_map.
    rewrite (total_none _ _ (absent merged)).
    2:{ intros j _ _. rewrite raw_value_zero; auto. intros m n Hmn. now apply FI in Hmn as [? _]. }
    rewrite nadd_comm, nadd_0_l.
    transitivity (total (fun o => String.eqb (o_item o) i && P (o_date o)) (raw_value metrics alo c) merged).
    { apply total_ext. intros o _. split; [reflexivity|]. intros _. apply raw_value_fill. }
    rewrite (total_perm _ _ _ _ PM), total_app, total_map.
    rewrite (total_none _ _ (missing_items perf assigned)) by (intros; apply raw_value_nan).
    now rewrite nadd_comm, nadd_0_l.
Qed.
End Prepared.
