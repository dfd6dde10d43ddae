(** Property theorems C07, C12, C13, C16 (time periods). *)
From Coq Require Import ZArith Reals List String Bool Lia.
From Flocq Require Import Core.
Require Import Verif.Base Verif.Num Verif.Frame Verif.F64 Verif.Design_Model Verif.Design_Spec
  Verif.Design_Proofs Verif.Design_Props Verif.Periods_Model Verif.Periods_Proofs.
Import ListNotations.
Open Scope string_scope.
Open Scope Z_scope.

(** a constructed crossover design has runtime 2h with washout < h *)
Lemma crossover_shape p d : mk_design p = Ok d -> crossover p = true ->
  exists w h, washout p = Some w /\ runtime p = 2 * h /\ 0 <= w < h /\ 0 <= pretest p.
Proof.
  intros H C. apply mk_design_iff in H as [[? ? ? ? ? ? ? ? Hc ? ?] ->].
  destruct (Hc C) as (w & E & W1 & W2 & (h & Hh)). exists w, h. repeat split; auto; lia.
Qed.

(** C12. Regular designs: a week is "pretest" iff it is one of the pretest weeks just before
    the start, "test" iff it is one of the runtime weeks, unlabelled otherwise. *)
Theorem c12_regular_periods :
  forall p d start w lab, mk_design p = Ok d -> crossover p = false -> label_fun p start = Ok lab ->
    (lab w = Some "pretest" <-> exists i, 0 <= i < pretest p /\ w = start - 1 - i) /\
    (lab w = Some "test" <-> exists i, 0 <= i < runtime p /\ w = start + i) /\
    (lab w = None <-> w < start - pretest p \/ start + runtime p <= w).
Proof.
  intros p d start w lab H C L. unfold label_fun in L. rewrite C in L. inversion L; subst.
  apply mk_design_iff in H as [[? ? ? ? ? ? ? ? ? ? ?] _].
  destruct (regular_label_iff start (pretest p) (runtime p) w) as (A & B & E); [lia|lia|].
  rewrite A, B, E. unfold in_span. repeat split; intros; try lia.
  - exists (start - 1 - w). lia.
  - destruct H as (i & ? & ->). lia.
  - destruct H as (i & ? & ->). lia.
  - exists (w - start). lia.
  - destruct H as (i & ? & ->). lia.
  - destruct H as (i & ? & ->). lia.
Qed.

(** on frames: only the period column is added, the labels are those of the week column, and
    the two documented errors are the only ones for a constructed design *)
Theorem c12_add_time_period_column :
  forall p d f start wc pc, mk_design p = Ok d ->
    (has_col pc f = true -> add_time_period_column f p start wc pc = Err (ValueError "time_period_column exists")) /\
    (has_col pc f = false -> get_col wc f = None ->
       add_time_period_column f p start wc pc = Err (ValueError "week_id_column missing")) /\
    (has_col pc f = false -> forall ws, get_col wc f = Some ws ->
       exists lab, label_fun p start = Ok lab /\
         add_time_period_column f p start wc pc =
           Ok (f ++ [(pc, map (fun c => match c with CZ w => match lab w with Some s => CStr s | None => CNull end
                                              | _ => CNull end) ws)])%list).
Proof.
  intros p d f start wc pc H. unfold add_time_period_column. repeat split.
  - intros ->. reflexivity.
  - intros -> ->. reflexivity.
  - intros Hc ws ->. rewrite Hc.
    assert (E : exists lab, label_fun p start = Ok lab).
    { unfold label_fun. destruct (crossover p) eqn:C; [|eauto].
      destruct (crossover_shape p d H C) as (w & h & -> & _). eauto. }
    destruct E as [lab E]. exists lab. split; auto. rewrite E. simpl.
    rewrite set_col_fresh by auto. f_equal.
Qed.

Definition ex_regular : params :=
  mkParams 100 4 "clicks" 3 false f0 f0 f0 None (flit 5 100) (flit 8 10) None.
Example c12_example :
  mk_design ex_regular = Ok (mkDesignRec ex_regular 100 100) /\
  exists lab, label_fun ex_regular 10 = Ok lab /\
    map lab [6; 7; 9; 10; 13; 14] = [None; Some "pretest"; Some "pretest"; Some "test"; Some "test"; None].
Proof.
  split. { apply Design_Yaml_Proofs.mk_design_check. vm_compute. reflexivity. }
  eexists. split; reflexivity.
Qed.

(** C13. Crossover designs: runtime = 2h; the weeks are, in order, pretest, washout_1,
    test_1, washout_2, test_2, adjacent spans of the stated lengths. *)
Theorem c13_crossover_periods :
  forall p d start lab, mk_design p = Ok d -> crossover p = true -> label_fun p start = Ok lab ->
    exists wash h, washout p = Some wash /\ runtime p = 2 * h /\ 1 <= h - wash /\ 0 <= wash /\
    forall w,
      (lab w = Some "pretest" <-> start - pretest p <= w < start) /\
      (lab w = Some "washout_1" <-> start <= w < start + wash) /\
      (lab w = Some "test_1" <-> start + wash <= w < start + h) /\
      (lab w = Some "washout_2" <-> start + h <= w < start + h + wash) /\
      (lab w = Some "test_2" <-> start + h + wash <= w < start + runtime p) /\
      (lab w = None <-> w < start - pretest p \/ start + runtime p <= w).
Proof.
  intros p d start lab H C L. destruct (crossover_shape p d H C) as (wash & h & E & R & W & P).
  exists wash, h. split; [auto|]. split; [auto|]. split; [lia|]. split; [lia|]. intros w.
  unfold label_fun in L. rewrite C, E in L. inversion L; subst. rewrite R.
  destruct (crossover_label_iff start (pretest p) h wash w) as (A1 & A2 & A3 & A4 & A5 & A6); try lia.
  rewrite A1, A2, A3, A4, A5, A6. unfold in_span. repeat split; intros; lia.
Qed.

(** both test periods have the same positive number of weeks: counting labelled weeks over
    any window that contains the runtime *)
Definition count_label (lab : Z -> label) (s : string) (weeks : list Z) : nat :=
  List.length (filter (fun w => match lab w with Some x => String.eqb x s | None => false end) weeks).

Theorem c13_equal_positive_test_periods :
  forall p d start lab lo hi, mk_design p = Ok d -> crossover p = true -> label_fun p start = Ok lab ->
    lo <= start -> start + runtime p <= hi ->
    exists wash, washout p = Some wash /\
    count_label lab "test_1" (zrange lo hi) = Z.to_nat (runtime p / 2 - wash) /\
    count_label lab "test_2" (zrange lo hi) = Z.to_nat (runtime p / 2 - wash) /\
    count_label lab "washout_1" (zrange lo hi) = Z.to_nat wash /\
    count_label lab "washout_2" (zrange lo hi) = Z.to_nat wash /\
    1 <= runtime p / 2 - wash.
Proof.
  intros p d start lab lo hi H C L Hlo Hhi.
  destruct (c13_crossover_periods p d start lab H C L) as (wash & h & E' & R & W & Wp & S).
  exists wash. replace (runtime p / 2) with h by (rewrite R, Z.mul_comm, Z.div_mul; lia).
  assert (G : forall s a k, (forall w, lab w = Some s <-> a <= w < a + k) -> start <= a -> a + k <= start + runtime p -> 0 <= k ->
     count_label lab s (zrange lo hi) = Z.to_nat k).
  { intros s a k Hw H1 H2 H3. unfold count_label. apply (filter_span a); try lia.
    intros w. rewrite <- Hw. destruct (lab w) as [x|]; [|intuition discriminate].
    rewrite String.eqb_eq. intuition congruence. }
  split; [auto|]. split; [apply (G _ (start + wash)); try lia; intros w; destruct (S w) as (_ & _ & A & _); rewrite A; lia|].
  split; [apply (G _ (start + h + wash)); try lia; intros w; destruct (S w) as (_ & _ & _ & _ & A & _); rewrite A; lia|].
  split; [apply (G _ start); try lia; intros w; destruct (S w) as (_ & A & _); rewrite A; lia|].
  split; [apply (G _ (start + h)); try lia; intros w; destruct (S w) as (_ & _ & _ & A & _); rewrite A; lia|].
  lia.
Qed.

Example c13_example :
  exists lab, label_fun ex_params 10 = Ok lab /\
    map lab [5; 6; 9; 10; 11; 13; 14; 15; 17; 18] =
    [None; Some "pretest"; Some "pretest"; Some "washout_1"; Some "test_1"; Some "test_1";
     Some "washout_2"; Some "test_2"; Some "test_2"; None].
Proof. eexists. split; reflexivity. Qed.

(** C07. The printed washout weeks (1-based) are exactly the runtime weeks labelled washout,
    and the swap is printed for the first week of the second half. *)
Theorem c07_printed_washout_weeks_are_labelled_washout :
  forall p d start lab wash, mk_design p = Ok d -> crossover p = true -> washout p = Some wash ->
    label_fun p start = Ok lab ->
    forall i, In i (printed_washout_weeks p wash) <->
              (lab (start + i - 1) = Some "washout_1" \/ lab (start + i - 1) = Some "washout_2").
Proof.
  intros p d start lab wash H C E L i.
  destruct (c13_crossover_periods p d start lab H C L) as (w' & h & E' & R & W & Wp & S).
  rewrite E in E'. inversion E'; subst w'.
  destruct (S (start + i - 1)) as (_ & A & _ & B & _). rewrite A, B.
  unfold printed_washout_weeks. rewrite in_app_iff, !zrange_In.
  replace (runtime p / 2) with h by (rewrite R, Z.mul_comm, Z.div_mul; lia). lia.
Qed.

Theorem c07_printed_swap_week_starts_second_half :
  forall p d start lab, mk_design p = Ok d -> crossover p = true -> label_fun p start = Ok lab ->
    forall w, (exists x, lab w = Some x /\ (x = "washout_2" \/ x = "test_2")) <->
              start + printed_swap_weeks p <= w < start + runtime p.
Proof.
  intros p d start lab H C L w.
  destruct (c13_crossover_periods p d start lab H C L) as (w' & h & E' & R & W & Wp & S).
  destruct (S w) as (_ & _ & _ & A & B & _).
  unfold printed_swap_weeks. replace (runtime p / 2) with h by (rewrite R, Z.mul_comm, Z.div_mul; lia).
  split.
  - intros (x & Hx & [->| ->]); [apply A in Hx|apply B in Hx]; lia.
  - intros Hw. destruct (Z_lt_ge_dec w (start + h + w')).
    + exists "washout_2". split; auto. apply A. lia.
    + exists "test_2". split; auto. apply B. lia.
Qed.

Example c07_example :
  printed_washout_weeks ex_params 1 = [1; 5] /\
  exists lab, label_fun ex_params 10 = Ok lab /\ lab (10 + 1 - 1) = Some "washout_1" /\ lab (10 + 5 - 1) = Some "washout_2".
Proof. split; [reflexivity|]. eexists. repeat split; reflexivity. Qed.

(** C16. Plotted spans: with the start week beginning on [start_date], a day is inside a shaded span
    iff its week is labelled washout, the dashed line is on the first day of the second
    half, and the x limits enclose exactly the pretest and runtime days. *)
Theorem c16_plot_spans_match_labels :
  forall p d start lab wash start_date day, mk_design p = Ok d -> crossover p = true ->
    washout p = Some wash -> label_fun p start = Ok lab ->
    let w := start + (day - start_date) / 7 in
    let s := plot_spans (runtime p) wash start_date in
    ((fst (shade1 s) <= day < snd (shade1 s) \/ fst (shade2 s) <= day < snd (shade2 s)) <->
       (lab w = Some "washout_1" \/ lab w = Some "washout_2")) /\
    (crossover_line s <= day < snd (plot_xlim p start_date) <->
       (lab w = Some "washout_2" \/ lab w = Some "test_2")) /\
    (fst (plot_xlim p start_date) <= day < snd (plot_xlim p start_date) <-> lab w <> None).
Proof.
  intros p d start lab wash sd day H C E L w s.
  destruct (c13_crossover_periods p d start lab H C L) as (w' & h & E' & R & W & Wp & S).
  rewrite E in E'. inversion E'; subst w'.
  destruct (S w) as (A1 & A2 & A3 & A4 & A5 & A6).
  assert (Hd : 7 * ((day - sd) / 7) <= day - sd < 7 * ((day - sd) / 7) + 7).
  { generalize (Z.div_mod (day - sd) 7). generalize (Z.mod_pos_bound (day - sd) 7). lia. }
  set (k := (day - sd) / 7) in *.
  assert (Hs : s = mkSpans (sd, sd + 7 * wash) (sd + 7 * h, sd + 7 * h + 7 * wash) (sd + 7 * h)).
  { unfold s, plot_spans. rewrite R. replace (2 * h - 2 * wash) with ((h - wash) * 2) by ring.
    rewrite Z.div_mul by lia. f_equal; try lia; f_equal; lia. }
  rewrite Hs. unfold plot_xlim. cbn [fst snd shade1 shade2 crossover_line]. fold w in A1, A2, A3, A4, A5, A6. unfold w in *.
  rewrite A2, A4, A5. rewrite A6. rewrite R in *.
  assert (P : 0 <= pretest p). { apply mk_design_iff in H as [[] _]; auto. }
  clear - Hd P W Wp. split; [|split]; split; intros; lia.
Qed.

(** the plot's start date is the experiment start as soon as the data has a row on the first
    day of the experiment, whatever other rows there are *)
Theorem c16_plot_start_date :
  forall p d start lab start_date rows, mk_design p = Ok d -> label_fun p start = Ok lab ->
    (forall day l, In (day, l) rows -> l = lab (start + (day - start_date) / 7)) ->
    (exists l, In (start_date, l) rows) ->
    plot_start_date rows = Some start_date.
Proof.
  intros p d start lab sd rows H L Hr (l0 & H0).
  destruct (plot_label_from_start p start lab) as [G1 G2]; auto.
  { apply mk_design_iff in H as [[] _]; auto. }
  { apply mk_design_iff in H as [[] _]; auto. }
  { intros C. destruct (crossover_shape p d H C) as (w & h & A & B & D & _). eauto. }
  unfold plot_start_date. apply zmin_list_spec. split.
  - apply in_map_iff. exists (sd, l0). split; auto. apply filter_In. split; auto. simpl.
    rewrite (Hr _ _ H0). rewrite Z.sub_diag, Z.div_0_l, Z.add_0_r by lia. exact G2.
  - intros x Hx. apply in_map_iff in Hx as ([day l] & <- & Hin). apply filter_In in Hin as [Hin Hl].
    simpl in *. rewrite (Hr _ _ Hin) in Hl. apply G1 in Hl.
    assert (0 <= (day - sd) / 7) by lia.
    assert (0 <= day - sd) by (generalize (Z.div_mod (day - sd) 7), (Z.mod_pos_bound (day - sd) 7); lia). lia.
Qed.

Example c16_example :
  let s := plot_spans 8 1 100 in
  shade1 s = (100, 107) /\ shade2 s = (128, 135) /\ crossover_line s = 128 /\
  plot_xlim ex_params 100 = (72, 156) /\
  plot_start_date [(99, Some "pretest"); (100, Some "washout_1"); (107, Some "test_1")] = Some 100.
Proof. repeat split; reflexivity. Qed.

Print Assumptions c07_printed_washout_weeks_are_labelled_washout.
Print Assumptions c07_printed_swap_week_starts_second_half.
Print Assumptions c12_regular_periods.
Print Assumptions c12_add_time_period_column.
Print Assumptions c13_crossover_periods.
Print Assumptions c13_equal_positive_test_periods.
Print Assumptions c16_plot_spans_match_labels.
Print Assumptions c16_plot_start_date.
