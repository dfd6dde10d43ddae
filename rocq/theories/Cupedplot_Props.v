(** C77: the per-date CUPED adjustment used for plotting. *)
From Coq Require Import ZArith Reals Lra Lia String List Bool.
From Flocq Require Import Core BinarySingleNaN.
Require Import Verif.Base Verif.Num Verif.F64 Verif.ListLib Verif.Trimmed_Model Verif.Trimmed_Spec Verif.Trimmed_Proofs Verif.Cuped_Model Verif.Cuped_Props Verif.Moments Verif.Cupedplot_Model.
Require Verif.Tests_Props.
Import ListNotations.
Open Scope list_scope.
Open Scope R_scope.

(** *** Specification: rows with finite values and known dates *)
Record rrow := mkRR { r_item : string; r_date : Z; r_period : string; r_value : R }.
Definition row (r : rrow) : prow := mkPR (r_item r) (Some (r_date r)) (r_period r) (Fin (r_value r)).
Definition on (d : Z) (rows : list rrow) : list rrow := filter (fun r => Z.eqb (r_date r) d) rows.
Definition pretest_of (rows : list rrow) (item : string) : list rrow :=
  filter (fun r => if String.string_dec (r_period r) "pretest" then if String.string_dec (r_item r) item then true else false else false) rows.
Definition pretest_sum (rows : list rrow) (item : string) : R := fold_right Rplus 0 (map r_value (pretest_of rows item)).
(** the new column at the rows of one date *)
Definition column_on (d : Z) (rows : list rrow) (column : list num) : list num :=
  map snd (filter (fun p => Z.eqb (r_date (fst p)) d) (combine rows column)).

(** *** Lemmas on masks *)
Lemma filter_shorter {A} (f : A -> bool) l : (length (filter f l) <= length l)%nat.
Proof. induction l as [|x l IH]; auto. cbn [filter length]. destruct (f x); cbn [length]; lia. Qed.
Lemma nan_in (l : list num) : In NaN l \/ ~ In NaN l.
Proof. induction l as [|x l [H|H]]; [right; intros []|left; now right|]. destruct x; [..|left; now left]; right; intros [E|E]; auto; discriminate. Qed.
Lemma select_map {A} (f : prow -> bool) (g : prow -> A) rows : select (map f rows) (map g rows) = map g (filter f rows).
Proof.
  unfold select. induction rows as [|r rows IH]; auto. cbn [map combine filter fst]. destruct (f r); cbn [map snd]; now rewrite IH.
Qed.
Lemma assign_length {A} mask (v l : list A) : List.length (assign mask v l) = length l.
Proof.
  revert v l. induction mask as [|b mask IH]; intros v [|x l]; auto; [destruct b; auto|].
  destruct b; cbn [assign]; [destruct v|]; cbn [length]; now rewrite IH.
Qed.
Lemma select_assign {A} mask (v l : list A) : length mask = length l -> length v = length (filter (fun b => b) mask) ->
  select mask (assign mask v l) = v.
Proof.
  unfold select. revert v l. induction mask as [|b mask IH]; intros v l L V.
  - destruct v; [|discriminate]. now destruct l.
  - destruct l as [|x l]; [discriminate|]. injection L as L. destruct b; cbn [filter length] in V.
    + destruct v as [|y v]; [discriminate|]. injection V as V. cbn [assign combine filter fst map snd]. now rewrite (IH v l L V).
    + cbn [assign combine filter fst map snd]. auto.
Qed.
Lemma select_assign_other {A} mask mask' (v l : list A) : length mask = length mask' ->
  (forall i, nth i mask false = true -> nth i mask' false = true -> False) ->
  select mask' (assign mask v l) = select mask' l.
Proof.
  unfold select. revert mask' v l. induction mask as [|b mask IH]; intros mask' v l L D; auto.
  destruct mask' as [|b' mask']; [discriminate|]. destruct l as [|x l]; [destruct b; reflexivity|].
  injection L as L. assert (D' : forall i, nth i mask false = true -> nth i mask' false = true -> False) by (intros i; exact (D (S i))).
  assert (D0 := D O). cbn [nth] in D0.
  destruct b; [destruct b'; [exfalso; auto|]|]; cbn [assign]; [destruct v|]; cbn [combine filter fst map snd]; try (destruct b'; cbn [map snd]); rewrite ?(IH _ _ _ L D'); auto.
Qed.

(** *** The adjustment with quantile 0 never fails on a non-empty date *)
Definition adjusted (m c : list num) : list num :=
  zip_with (fun x y => nsub x (nmul (ndiv (np_cov m c) (np_cov c c)) (nsub y (nmean c)))) m c.
Lemma cuped_0 argsort m c : sorts argsort -> (0 < length m)%nat -> (Z.of_nat (length m) <= 2 ^ 53)%Z -> length c = length m ->
  apply_cuped_adjustment argsort m c f0 = Ok (adjusted m c).
Proof.
  intros HS H0 HB L. destruct (usable_0 (length m) H0 HB) as [U T]. unfold apply_cuped_adjustment. rewrite L, Nat.eqb_refl. cbn [negb raise_if bind]. fold (adjusted m c).
  assert (LA : length (adjusted m c) = length m) by (unfold adjusted, zip_with; rewrite map_length, combine_length; lia).
  destruct (mk_trimmed_usable argsort [adjusted m c; m; c] f0 (length m) HS U) as (t & -> & _ & K & _); [discriminate|intros r [<-|[<-|[<-|[]]]]; auto|].
  cbn [bind]. rewrite T in K. replace (t_k t) with 0%nat by lia. reflexivity.
Qed.
Lemma adjusted_length m c : length c = length m -> length (adjusted m c) = length m.
Proof. intros L. unfold adjusted, zip_with. rewrite map_length, combine_length. lia. Qed.

(** an unknown covariate makes the whole date unknown *)
Lemma nsum_nan l : In NaN l -> nsum l = NaN.
Proof. induction l as [|x l IH]; [intros []|]. intros [->|H]; cbn [nsum]; [reflexivity|]. rewrite (IH H). now destruct x. Qed.
Lemma adjusted_nan m c : length c = length m -> In NaN c -> adjusted m c = repeat NaN (length m).
Proof.
  intros L H. assert (E : nmean c = NaN) by (unfold nmean; now rewrite (nsum_nan c H)). unfold adjusted, zip_with. rewrite E.
  transitivity (map (fun _ : num * num => NaN) (combine m c)).
  - apply map_ext. intros (x & y). cbn [fst snd]. replace (nsub y NaN) with NaN by (now destruct y).
    replace (nmul (ndiv (np_cov m c) (np_cov c c)) NaN) with NaN by (now destruct (ndiv _ _)). now destruct x.
  - assert (LC : length (combine m c) = length m) by (rewrite combine_length; lia). rewrite <- LC. clear. induction (combine m c); cbn; congruence.
Qed.

(** *** The loop over the dates *)
Section Loop.
Context (argsort : list num -> list nat) (HS : sorts argsort) (rows : list prow).

Definition date_values (d : option Z) : list num := map p_value (filter (on_date d) rows).
Definition date_totals (d : option Z) : list num := map (fun r => pretest_total rows (p_item r)) (filter (on_date d) rows).
Definition mask (d : option Z) : list bool := map (on_date d) rows.

Lemma mask_count d : length (filter (fun b => b) (mask d)) = length (date_values d).
Proof. unfold mask, date_values. rewrite map_length. induction rows as [|r l IH]; auto. cbn [map filter]. destruct (on_date d r); cbn [length]; auto. Qed.
Lemma totals_length d : length (date_totals d) = length (date_values d).
Proof. unfold date_totals, date_values. now rewrite !map_length. Qed.
Lemma values_short d : (length (date_values d) <= length rows)%nat.
Proof. unfold date_values. rewrite map_length. apply filter_shorter. Qed.

Lemma adjust_date_eq column d : length column = length rows -> (Z.of_nat (length rows) <= 2 ^ 53)%Z -> date_values d <> [] ->
  adjust_date argsort rows column d = Ok (assign (mask d) (adjusted (date_values d) (date_totals d)) column).
Proof.
  intros LC HB NE. unfold adjust_date. rewrite !select_map. fold (date_values d) (date_totals d) (mask d).
  assert (V := values_short d). rewrite cuped_0; auto; [destruct (date_values d); [congruence|simpl; lia]|lia|apply totals_length].
Qed.
Lemma disjoint d d' : d <> d' -> forall i, nth i (mask d) false = true -> nth i (mask d') false = true -> False.
Proof.
  intros N i A B. unfold mask in *. clear HS. revert i A B. induction rows as [|r l IH]; intros [|i] A B; cbn [map nth] in *; try discriminate; eauto.
  unfold on_date in A, B. destruct d, d', (p_date r); try discriminate. apply Z.eqb_eq in A, B. congruence.
Qed.

Lemma adjust_dates_ok ds : forall column, NoDup ds -> length column = length rows -> (Z.of_nat (length rows) <= 2 ^ 53)%Z -> (forall d, In d ds -> date_values d <> []) ->
  exists c, adjust_dates argsort rows column ds = Ok c /\ length c = length rows /\
    (forall d, In d ds -> select (mask d) c = adjusted (date_values d) (date_totals d)) /\
    (forall d, ~ In d ds -> select (mask d) c = select (mask d) column).
Proof.
  induction ds as [|d ds IH]; intros column ND LC HB NE.
  - exists column. split; auto. split; auto. split; [intros d []|auto].
  - inversion_clear ND as [|? ? NI ND']. cbn [adjust_dates]. rewrite adjust_date_eq; auto; [|apply NE; now left]. cbn [bind].
    set (c1 := assign _ _ column). assert (L1 : length c1 = length rows) by (unfold c1; now rewrite assign_length).
    destruct (IH c1 ND' L1 HB) as (c & E & L & A & B); [intros; apply NE; now right|]. exists c. split; auto. split; auto. split.
    + intros d' [<-|H]; auto. rewrite B by auto. unfold c1. apply select_assign; [unfold mask; now rewrite map_length|]. rewrite adjusted_length by apply totals_length. symmetry; apply mask_count.
    + intros d' N. rewrite B by (intros H; apply N; now right). unfold c1. apply select_assign_other; [unfold mask; now rewrite !map_length|]. apply disjoint. intros ->. apply N. now left.
Qed.
End Loop.

Lemma same_date_spec a b : same_date a b = true <-> a = b.
Proof. destruct a, b; cbn; split; intros H; try discriminate; auto; [apply Z.eqb_eq in H; congruence|injection H as ->; apply Z.eqb_refl]. Qed.
Lemma distinct_In l d : In d (distinct_dates l) <-> In d l.
Proof.
  induction l as [|x l IH]; cbn [distinct_dates]; [tauto|]. cbn [In]. rewrite filter_In, IH. split; [tauto|]. intros [H|H]; auto.
  destruct (same_date x d) eqn:E; [left; now apply same_date_spec|right; auto].
Qed.
Lemma distinct_NoDup l : NoDup (distinct_dates l).
Proof.
  induction l as [|x l IH]; cbn [distinct_dates]; constructor.
  - rewrite filter_In. intros [_ H]. now rewrite (proj2 (same_date_spec x x) eq_refl) in H.
  - now apply NoDup_filter.
Qed.

(** *** Rows with finite values and known dates *)
Lemma on_rows d rows : filter (on_date (Some d)) (map row rows) = map row (on d rows).
Proof. unfold on. induction rows as [|r l IH]; auto. cbn [map filter on_date row p_date]. rewrite Z.eqb_sym. destruct (Z.eqb (r_date r) d); cbn [map]; now rewrite IH. Qed.
Lemma skipna_fin l : skipna_sum (map Fin l) = Fin (fold_right Rplus 0 l).
Proof. unfold skipna_sum. induction l as [|x l IH]; auto. cbn [map filter nsum fold_right]. rewrite IH. reflexivity. Qed.
Lemma pretest_filter rows item : filter (fun r => andb (is_pretest r) (String.eqb (p_item r) item)) (map row rows) = map row (pretest_of rows item).
Proof.
  unfold pretest_of. induction rows as [|r l IH]; auto. cbn [map filter]. change (is_pretest (row r)) with (String.eqb (r_period r) "pretest"). cbn [row p_item].
  destruct (String.string_dec (r_period r) "pretest") as [->|N].
  - rewrite String.eqb_refl. cbn [andb]. destruct (String.string_dec (r_item r) item) as [->|N]; [rewrite String.eqb_refl|apply String.eqb_neq in N; rewrite N]; cbn [map]; now rewrite IH.
  - apply String.eqb_neq in N. rewrite N. cbn [andb]. now rewrite IH.
Qed.
Lemma pretest_total_row rows item : pretest_total (map row rows) item = if pretest_of rows item then NaN else Fin (pretest_sum rows item).
Proof.
  unfold pretest_total, pretest_sum. rewrite pretest_filter. destruct (pretest_of rows item) as [|r l]; [reflexivity|].
  cbn [map]. change (skipna_sum (map p_value (map row (r :: l))) = Fin (fold_right Rplus 0 (map r_value (r :: l)))).
  rewrite map_map. rewrite <- skipna_fin, map_map. reflexivity.
Qed.
Lemma column_select d rows c : column_on d rows c = select (mask (map row rows) (Some d)) c.
Proof.
  unfold column_on, select, mask. revert c. induction rows as [|r l IH]; intros [|x c]; auto. cbn [map combine filter fst].
  cbn [on_date row p_date]. rewrite Z.eqb_sym. destruct (Z.eqb d (r_date r)); cbn [map snd]; now rewrite IH.
Qed.

Lemma add_cuped_row argsort empty rows : sorts argsort -> (exists r, In r rows /\ r_period r = "pretest"%string) ->
  length empty = length rows -> (Z.of_nat (length rows) <= 2 ^ 53)%Z ->
  exists c, add_cuped argsort empty (map row rows) = Ok c /\ length c = length rows /\
    forall d, on d rows <> [] -> column_on d rows c = adjusted (date_values (map row rows) (Some d)) (date_totals (map row rows) (Some d)).
Proof.
  intros HS (r & Hr & EP) LE HB. unfold add_cuped.
  assert (X : existsb is_pretest (map row rows) = true) by (apply existsb_exists; exists (row r); split; [now apply in_map|unfold is_pretest; cbn; rewrite EP; reflexivity]).
  rewrite X. cbn [negb raise_if bind].
  assert (IN : forall d, In d (distinct_dates (map p_date (map row rows))) <-> exists z, d = Some z /\ on z rows <> []).
  { intros d. rewrite distinct_In, map_map, in_map_iff. split.
    - intros (x & <- & Hx). exists (r_date x). split; auto. intros E. assert (In x (on (r_date x) rows)) by (apply filter_In; split; auto; apply Z.eqb_refl). rewrite E in H. destruct H.
    - intros (z & -> & N). destruct (on z rows) as [|x l] eqn:E; [congruence|]. assert (H : In x (on z rows)) by (rewrite E; now left). apply filter_In in H as [Hx Ez]. apply Z.eqb_eq in Ez. exists x. cbn. split; auto. congruence. }
  destruct (adjust_dates_ok argsort HS (map row rows) (distinct_dates (map p_date (map row rows))) empty) as (c & E & L & A & _).
  - apply distinct_NoDup.
  - now rewrite map_length.
  - now rewrite map_length.
  - intros d Hd. apply IN in Hd as (z & -> & N). unfold date_values. rewrite on_rows. destruct (on z rows); [congruence|discriminate].
  - rewrite map_length in L. exists c. split; auto. split; auto. intros d N. rewrite column_select. apply A. apply IN. eauto.
Qed.

(** *** What is plotted *)
Theorem c77_mean_kept_variance_not_larger :
  forall argsort empty rows, sorts argsort -> (exists r, In r rows /\ r_period r = "pretest"%string) ->
  length empty = length rows -> (Z.of_nat (length rows) <= 2 ^ 53)%Z ->
  exists c, add_cuped argsort empty (map row rows) = Ok c /\ length c = length rows /\
    forall d, let m := map r_value (on d rows) in let t := map (fun r => pretest_sum rows (r_item r)) (on d rows) in
      (forall r, In r (on d rows) -> pretest_of rows (r_item r) <> []) -> sqdev t <> 0 ->
      exists y, column_on d rows c = map Fin y /\ length y = length m /\ avg y = avg m /\ codev y t = 0 /\
        sqdev y * sqdev t = sqdev m * sqdev t - codev m t ^ 2 /\ sqdev y <= sqdev m.
Proof.
  intros argsort empty rows HS HP LE HB. destruct (add_cuped_row argsort empty rows HS HP LE HB) as (c & E & L & A).
  exists c. split; auto. split; auto. intros d m t HT HV.
  assert (LM : length m = length (on d rows)) by (unfold m; now rewrite map_length). assert (LT : length t = length (on d rows)) by (unfold t; now rewrite map_length).
  assert (N2 : (2 <= length (on d rows))%nat).
  { clear - HV LT. destruct (le_lt_dec 2 (length (on d rows))) as [Q|Q]; auto. exfalso. apply HV. clearbody t. clear HV.
    destruct t as [|x [|y t]]; cbn [length] in LT; [reflexivity| |lia]. unfold sqdev, avg. cbn. field. }
  assert (NB : (Z.of_nat (length (on d rows)) <= 2 ^ 53)%Z) by (assert (Q := filter_shorter (fun r => Z.eqb (r_date r) d) rows); unfold on; lia).
  destruct (usable_0 (length (on d rows))) as [U T0]; [lia|exact NB|].
  destruct (c48_without_trimming argsort m t f0 (length (on d rows)) HS U T0 LM LT N2 HV) as (y & EY & LY & AY & CY & VY & SY & _).
  rewrite A by (intros Q; rewrite Q in N2; simpl in N2; lia). exists y.
  assert (EM : date_values (map row rows) (Some d) = map Fin m) by (unfold date_values, m; rewrite on_rows, !map_map; reflexivity).
  assert (ET : date_totals (map row rows) (Some d) = map Fin t).
  { unfold date_totals, t. rewrite on_rows, !map_map. apply map_ext_in. intros r Hr. cbn [row p_item]. rewrite pretest_total_row. specialize (HT r Hr). destruct (pretest_of rows (r_item r)); congruence. }
  rewrite EM, ET. rewrite cuped_0 in EY; auto; rewrite ?map_length; try lia. injection EY as EY. rewrite EY.
  split; auto. split; [congruence|]. auto.
Qed.

(** a date with a single row, with equal pretest totals, or with an item without pretest rows shows no value *)
Theorem c77_dates_without_a_value :
  forall argsort empty rows, sorts argsort -> (exists r, In r rows /\ r_period r = "pretest"%string) ->
  length empty = length rows -> (Z.of_nat (length rows) <= 2 ^ 53)%Z ->
  exists c, add_cuped argsort empty (map row rows) = Ok c /\
    forall d, (length (on d rows) = 1%nat \/
               (exists v, forall r, In r (on d rows) -> pretest_sum rows (r_item r) = v) \/
               exists r, In r (on d rows) /\ pretest_of rows (r_item r) = []) ->
      column_on d rows c = repeat NaN (length (on d rows)).
Proof.
  intros argsort empty rows HS HP LE HB. destruct (add_cuped_row argsort empty rows HS HP LE HB) as (c & E & L & A).
  exists c. split; auto. intros d HC.
  assert (LD : length (date_values (map row rows) (Some d)) = length (on d rows)) by (unfold date_values; rewrite on_rows, !map_length; reflexivity).
  destruct (on d rows) as [|r0 l0] eqn:EO.
  { unfold column_on. replace (filter (fun p => Z.eqb (r_date (fst p)) d) (combine rows c)) with (@nil (rrow * num)); auto. symmetry.
    destruct (filter _ (combine rows c)) as [|p q] eqn:Q; auto. assert (H : In p (filter (fun p => Z.eqb (r_date (fst p)) d) (combine rows c))) by (rewrite Q; now left).
    apply filter_In in H as [H Hd]. destruct p as (r & x). apply in_combine_l in H. assert (In r (on d rows)) by (apply filter_In; auto). rewrite EO in H0. destruct H0. }
  rewrite <- EO in *. rewrite A by (rewrite EO; discriminate).
  set (m := map r_value (on d rows)). set (t := map (fun r => pretest_sum rows (r_item r)) (on d rows)).
  assert (EM : date_values (map row rows) (Some d) = map Fin m) by (unfold date_values, m; rewrite on_rows, !map_map; reflexivity).
  assert (TL := totals_length (map row rows) (Some d)).
  destruct (nan_in (date_totals (map row rows) (Some d))) as [I|NI].
  - rewrite <- LD. now apply adjusted_nan.
  - assert (ALL : forall r, In r (on d rows) -> pretest_of rows (r_item r) <> []).
    { intros r Hr Q. apply NI. unfold date_totals. rewrite on_rows, map_map. apply in_map_iff. exists r. split; auto. cbn [row p_item]. rewrite pretest_total_row, Q. reflexivity. }
    assert (ET : date_totals (map row rows) (Some d) = map Fin t).
    { unfold date_totals, t. rewrite on_rows, !map_map. apply map_ext_in. intros r Hr. cbn [row p_item]. rewrite pretest_total_row. specialize (ALL r Hr). destruct (pretest_of rows (r_item r)); congruence. }
    assert (NB : (Z.of_nat (length (on d rows)) <= 2 ^ 53)%Z) by (assert (Q := filter_shorter (fun r => Z.eqb (r_date r) d) rows); unfold on; lia).
    assert (N1 : (0 < length (on d rows))%nat) by (rewrite EO; simpl; lia).
    destruct (usable_0 (length (on d rows)) N1 NB) as [U T0].
    assert (LM : length m = length (on d rows)) by (unfold m; now rewrite map_length). assert (LT : length t = length (on d rows)) by (unfold t; now rewrite map_length).
    assert (K : length (on d rows) = 1%nat \/ sqdev t = 0).
    { destruct HC as [HC|[(v & HC)|(r & Hr & Q)]]; auto; [right|now elim (ALL r Hr)].
      replace t with (repeat v (length (on d rows))); [rewrite <- codev_self; apply Tests_Props.codev_repeat|].
      unfold t. clear -HC. induction (on d rows) as [|r l IH]; auto. cbn [map length repeat]. rewrite HC by now left. f_equal. apply IH. intros; apply HC; now right. }
    assert (EY := c48_constant_covariate_gives_nan argsort m t f0 (length (on d rows)) HS U T0 LM LT K).
    rewrite cuped_0 in EY; auto; rewrite ?map_length; try lia. injection EY as EY. now rewrite EM, ET, EY.
Qed.

(** *** Failures *)
Theorem c77_without_pretest_rows_it_raises :
  forall argsort empty rows, (forall r, In r rows -> p_period r <> "pretest"%string) ->
  exists m, add_cuped argsort empty rows = Err (ValueError m).
Proof.
  intros argsort empty rows H. unfold add_cuped. destruct (existsb is_pretest rows) eqn:E.
  - apply existsb_exists in E as (r & Hr & E). elim (H r Hr). now apply String.eqb_eq.
  - cbn [negb raise_if bind]. eauto.
Qed.

(** a null date is looked up with ==, selects no row, and the adjustment of an empty array fails *)
Theorem c77_null_dates_make_it_raise :
  forall argsort empty rows r, In r rows -> p_date r = None -> ~ is_ok (add_cuped argsort empty rows).
Proof.
  intros argsort empty rows r Hr ED (c & H). unfold add_cuped in H. apply bind_ok in H as (_ & _ & H).
  assert (I : In None (distinct_dates (map p_date rows))) by (apply distinct_In; rewrite <- ED; now apply in_map).
  revert empty H I. induction (distinct_dates (map p_date rows)) as [|d ds IH]; intros empty H I; [destruct I|].
  cbn [adjust_dates] in H. apply bind_ok in H as (c1 & H1 & H). destruct I as [->|I]; [|eauto]. clear H IH.
  unfold adjust_date in H1. apply bind_ok in H1 as (y & H1 & _). rewrite !select_map in H1.
  replace (filter (on_date None) rows) with (@nil prow) in H1 by (clear; induction rows; auto).
  cbn [map] in H1. unfold apply_cuped_adjustment in H1. cbn [List.length Nat.eqb negb raise_if bind] in H1.
  apply bind_ok in H1 as (t & H1 & _). unfold mk_trimmed in H1. apply bind_ok in H1 as (_ & _ & H1). apply bind_ok in H1 as (k & _ & H1).
  apply bind_ok in H1 as (_ & _ & H1). apply bind_ok in H1 as (b & H1 & _). unfold any_array_is_constant in H1. cbn in H1. discriminate.
Qed.

(** two items with pretest totals 1 and 3, and one test date *)
Definition sample_rows : list rrow :=
  [mkRR "a" 0 "pretest" 1; mkRR "b" 0 "pretest" 3; mkRR "a" 1 "test_1" 2; mkRR "b" 1 "test_1" 5].
Example c77_example :
  (exists r, In r sample_rows /\ r_period r = "pretest"%string) /\
  (forall r, In r (on 1 sample_rows) -> pretest_of sample_rows (r_item r) <> []) /\
  sqdev (map (fun r => pretest_sum sample_rows (r_item r)) (on 1 sample_rows)) <> 0.
Proof.
  split; [exists (mkRR "a" 0 "pretest" 1); split; [now left|reflexivity]|]. split.
  - intros r [<-|[<-|[]]]; cbn; discriminate.
  - cbn. unfold sqdev, avg, pretest_sum. cbn. lra.
Qed.

Print Assumptions c77_mean_kept_variance_not_larger.
Print Assumptions c77_dates_without_a_value.
Print Assumptions c77_without_pretest_rows_it_raises.
Print Assumptions c77_null_dates_make_it_raise.
