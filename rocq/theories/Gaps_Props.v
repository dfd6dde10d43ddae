(** Statements added after seeded errors went unnoticed: names without case (C76), the figure of the effects (C93), unknown checks (C24),
    missing values in sums (C77, C82) and texts of infinite numbers (C74). *)
From Coq Require Import ZArith Reals Lra Lia List String Ascii Bool.
From Flocq Require Import Core BinarySingleNaN.
Require Import Verif.Base Verif.Num Verif.F64 Verif.ListLib Verif.Design_Model Verif.Checks_Model Verif.Checks_Proofs Verif.Checks_Props
  Verif.Cupedplot_Model Verif.Display_Model Verif.Stats_Model Verif.Analyzer_Model.
Require Verif.Experiment_Props Verif.Bars_Model Verif.Bars_Props Verif.History_Model Verif.Overtime_Model.
Import ListNotations.
Open Scope string_scope.
Open Scope list_scope.

(* ------------------------------------------------------------------ *)
(** *** C76: names are compared without case *)
Definition capitals : string := "ABCDEFGHIJKLMNOPQRSTUVWXYZ".
Definition smalls : string := "abcdefghijklmnopqrstuvwxyz".
(** the n-th capital letter becomes the n-th small letter, everything else stays *)
Definition lowered (c l : ascii) : Prop :=
  (exists n, String.get n capitals = Some c /\ String.get n smalls = Some l) \/ ((forall n, String.get n capitals <> Some c) /\ l = c).
Fixpoint position (c : ascii) (s : string) : option nat :=
  match s with "" => None | String x r => if Ascii.eqb x c then Some O else option_map S (position c r) end.
Lemma position_get c s : match position c s with Some n => String.get n s = Some c | None => forall n, String.get n s <> Some c end.
Proof.
  induction s as [|x s IH]; cbn [position]; [intros n; destruct n; discriminate|].
  destruct (Ascii.eqb_spec x c) as [->|N]; [reflexivity|]. destruct (position c s); cbn [option_map]; [exact IH|].
  intros [|n]; cbn; [congruence|apply IH].
Qed.
Definition lowered_b (c : ascii) : bool :=
  match position c capitals with
  | Some n => match String.get n smalls with Some l => Ascii.eqb (Bars_Model.lower_char c) l | None => false end
  | None => Ascii.eqb (Bars_Model.lower_char c) c
  end.
Lemma lowered_char c : lowered c (Bars_Model.lower_char c).
Proof.
  assert (E : lowered_b c = true) by (destruct c as [[] [] [] [] [] [] [] []]; vm_compute; reflexivity).
  unfold lowered_b in E. assert (P := position_get c capitals). destruct (position c capitals) as [n|].
  - left. exists n. split; auto. destruct (String.get n smalls) as [l|]; [|discriminate]. apply Ascii.eqb_eq in E. congruence.
  - right. split; auto. now apply Ascii.eqb_eq.
Qed.
Theorem c76_capital_letters_are_lowered : forall s, Forall2 lowered (list_ascii_of_string s) (list_ascii_of_string (Bars_Model.lower s)).
Proof. induction s as [|c s IH]; cbn; constructor; auto. apply lowered_char. Qed.
Example c76_lowered_example : Bars_Props.same_name "ROAZ" "roaz" /\ ~ Bars_Props.same_name "At least one click" "at_least_one_click".
Proof. split; [reflexivity|]. discriminate. Qed.

(* ------------------------------------------------------------------ *)
(** *** C93: when the figure of the effects is drawn, in terms of the results *)
Definition value_or_nan (o : option num) : num := match o with Some x => x | None => NaN end.
Definition relative_interval (nr : string * tresult) : Bars_Model.interval :=
  Bars_Model.mkI (value_or_nan (r_rel (snd nr))) (value_or_nan (r_rel_lower (snd nr))) (value_or_nan (r_rel_upper (snd nr))).
(** the relative intervals of the other metrics with the given significance *)
Definition others (res : list (string * tresult)) (m : string) (s : bool) (l : list Bars_Model.interval) : Prop :=
  forall i, In i l <-> exists nr, In nr res /\ ~ Bars_Props.same_name (fst nr) m /\ r_significant (snd nr) = s /\ relative_interval nr = i.
Definition only_one (res : list (string * tresult)) (m : string) (p : string * tresult) : Prop :=
  exists before after, res = before ++ p :: after /\ Bars_Props.same_name (fst p) m /\ forall nr, In nr (before ++ after) -> ~ Bars_Props.same_name (fst nr) m.

Lemma only_one_filter res m p : filter (fun nr => String.eqb (Bars_Model.lower (fst nr)) (Bars_Model.lower m)) res = [p] <-> only_one res m p.
Proof.
  set (pr := fun nr : string * tresult => String.eqb (Bars_Model.lower (fst nr)) (Bars_Model.lower m)).
  assert (PT : forall e, pr e = true <-> Bars_Props.same_name (fst e) m) by (intros; apply String.eqb_eq).
  assert (PF : forall e, pr e = false <-> ~ Bars_Props.same_name (fst e) m) by (intros e; rewrite <- PT; destruct (pr e); split; congruence).
  assert (NONE : forall d, filter pr d = [] <-> forall e, In e d -> ~ Bars_Props.same_name (fst e) m).
  { induction d as [|e d IH]; cbn [filter]; [split; [intros _ e []|auto]|]. destruct (pr e) eqn:E; split; intros H; try discriminate.
    - exfalso. apply (H e); [now left|]. now apply PT.
    - intros e' [<-|He]; [now apply PF|]. now apply IH.
    - apply IH. intros; apply H; now right. }
  unfold only_one. fold pr. induction res as [|e d IH]; cbn [filter]; [split; [discriminate|intros (b & a & E & _); destruct b; discriminate]|].
  destruct (pr e) eqn:E; split; intros H.
  - injection H as -> H. exists [], d. split; auto. split; [now apply PT|]. now apply NONE.
  - destruct H as (b & a & Q & S & N). destruct b as [|e' b]; cbn in Q; injection Q as -> ->; [f_equal; now apply NONE|].
    exfalso. apply (N e'); [now left|]. now apply PT.
  - apply IH in H as (b & a & -> & S & N). exists (e :: b), a. split; auto. split; auto. intros e' [<-|He]; [now apply PF|auto].
  - apply IH. destruct H as (b & a & Q & S & N). destruct b as [|e' b]; cbn in Q; injection Q as -> ->; [apply PT in S; congruence|].
    exists b, a. split; auto. split; auto. intros; apply N; now right.
Qed.

Theorem c93_figure_is_drawn_iff :
  forall res d sig nonsig, let m := metric (par d) in others res m true sig -> others res m false nonsig ->
  ((exists fig, effects_figure res d = Ok fig) <->
   (exists nr x, In nr res /\ r_rel (snd nr) = Some x) /\
   exists p, only_one res m p /\
     (exists x a b, (r_rel (snd p) = Some (Fin x) \/ (forall y, r_rel (snd p) <> Some (Fin y)) /\ x = 0%R) /\
        r_rel_lower (snd p) = Some (Fin a) /\ r_rel_upper (snd p) = Some (Fin b) /\ (a <= x <= b)%R) /\
     Bars_Props.fits sig /\ Bars_Props.fits nonsig).
Proof.
  intros res d sig nonsig m HS HN.
  assert (SEC : forall s l, others res m s l -> Bars_Props.secondary (map effect_row res) m s l).
  { intros s l H i. rewrite (H i). split.
    - intros (nr & A & B & C & D). exists (effect_row nr). split; [now apply in_map|]. auto.
    - intros (e & A & B & C & D). apply in_map_iff in A as (nr & <- & A). exists nr. auto. }
  assert (PE := Bars_Props.c76_plot_effects_succeeds_iff (map effect_row res) m sig nonsig (SEC _ _ HS) (SEC _ _ HN)).
  assert (ONE : forall p, only_one res m p -> forall b q a, map effect_row res = b ++ q :: a -> Bars_Props.same_name (Bars_Model.e_metric q) m ->
    (forall e, In e (b ++ a) -> ~ Bars_Props.same_name (Bars_Model.e_metric e) m) -> q = effect_row p).
  { intros p (b1 & a1 & -> & S1 & _) b q a E S N.
    assert (I : In (effect_row p) (b ++ q :: a)) by (rewrite <- E, map_app; apply in_or_app; right; now left).
    apply in_app_or in I as [I|[I|I]]; auto; exfalso; apply (N (effect_row p)); [apply in_or_app; now left|exact S1|apply in_or_app; now right|exact S1]. }
  assert (VN : forall o x, value_or_nan o = Fin x <-> o = Some (Fin x)) by (intros [y|] x; cbn; split; congruence).
  assert (NR : forallb no_relative res = false <-> exists nr x, In nr res /\ r_rel (snd nr) = Some x).
  { unfold no_relative. split.
    - intros F. apply not_true_iff_false in F. destruct (existsb (fun nr => match r_rel (snd nr) with Some _ => true | None => false end) res) eqn:X.
      + apply existsb_exists in X as (nr & I & X). destruct (r_rel (snd nr)) as [x|] eqn:R; [|discriminate]. eauto.
      + elim F. apply forallb_forall. intros nr I. destruct (r_rel (snd nr)) as [x|] eqn:R; auto.
        rewrite existsb_false_iff in X. specialize (X nr I). cbn in X. rewrite R in X. discriminate.
    - intros (nr & x & I & R). apply not_true_iff_false. intros F. rewrite forallb_forall in F. specialize (F nr I). now rewrite R in F. }
  assert (OK : forall p, only_one res m p -> (Base.is_ok (Bars_Model.plot_effects (map effect_row res) m) <->
     (exists x a b, (r_rel (snd p) = Some (Fin x) \/ (forall y, r_rel (snd p) <> Some (Fin y)) /\ x = 0%R) /\
        r_rel_lower (snd p) = Some (Fin a) /\ r_rel_upper (snd p) = Some (Fin b) /\ (a <= x <= b)%R) /\
     Bars_Props.fits sig /\ Bars_Props.fits nonsig)).
  { intros p O. rewrite PE. split.
    - intros (b & q & a & E & S & N & (x & u & v & D & L & U & XX) & FF). assert (q = effect_row p) by (eapply ONE; eauto). subst q.
      split; [|exact FF]. exists x, u, v. cbn in L, U. apply VN in L, U. split; [|auto].
      destruct D as [D|[D D']]; [left; now apply VN|right; split; [|exact D']]. intros y Y. apply (D y). now apply VN.
    - intros ((x & u & v & D & L & U & XX) & FF). destruct O as (b & a & -> & S & N).
      exists (map effect_row b), (effect_row p), (map effect_row a). split; [now rewrite map_app|]. split; [exact S|].
      split. { intros e He. rewrite <- map_app in He. apply in_map_iff in He as (nr & <- & I). now apply N. }
      split; [|exact FF]. exists x, u, v. split; [|cbn; rewrite L, U; auto].
      destruct D as [D|[D D']]; [left; now apply VN|right; split; [|exact D']]. intros y Y. apply (D y). now apply VN. }
  unfold effects_figure. fold m.
  destruct (filter (fun nr => String.eqb (Bars_Model.lower (fst nr)) (Bars_Model.lower m)) res) as [|p [|q l]] eqn:F.
  - split; [|intros (_ & p & O & _); apply only_one_filter in O; rewrite F in O; discriminate].
    intros X. exfalso. assert (K : Base.is_ok (Bars_Model.plot_effects (map effect_row res) m)) by (destruct X as (fig & X); exists fig; exact X).
    apply PE in K as (b & q & a & E & S & N & _). symmetry in E.
    assert (I : In q (map effect_row res)) by (rewrite <- E; apply in_or_app; right; now left). apply in_map_iff in I as (nr & <- & I).
    assert (J : In nr (filter (fun nr => String.eqb (Bars_Model.lower (fst nr)) (Bars_Model.lower m)) res)) by (apply filter_In; split; auto; now apply String.eqb_eq).
    rewrite F in J. destruct J.
  - assert (O := proj1 (only_one_filter res m p) F). destruct (forallb no_relative res) eqn:NRE.
    + split; [intros (? & ?); discriminate|]. intros (X & _). apply NR in X. congruence.
    + split.
      * intros (fig & X). split; [now apply NR|]. exists p. split; auto. apply OK; auto. now exists fig.
      * intros (_ & p' & O' & X). apply OK in X; auto.
  - assert (NP : forall p', ~ only_one res m p') by (intros p' O; apply only_one_filter in O; rewrite F in O; discriminate).
    split; [|intros (_ & p' & O & _); elim (NP p' O)].
    intros (fig & X). exfalso. assert (K : Base.is_ok (Bars_Model.plot_effects (map effect_row res) m)) by (exists fig; exact X). unfold Bars_Model.plot_effects in K.
    assert (FL : filter (fun e => String.eqb (Bars_Model.lower (Bars_Model.e_metric e)) (Bars_Model.lower m)) (map effect_row res) =
      map effect_row (filter (fun nr => String.eqb (Bars_Model.lower (fst nr)) (Bars_Model.lower m)) res)).
    { clear. induction res as [|nr res IH]; [reflexivity|]. cbn [map filter effect_row Bars_Model.e_metric]. destruct (String.eqb _ _); cbn [map]; now rewrite IH. }
    rewrite FL, F in K. destruct K as (? & K). discriminate.
Qed.

(** without any relative difference the figure fails on the type of the empty columns, unless the primary metric is missing *)
Theorem c93_figure_without_relative_differences :
  forall res d, effects_figure res d = Err (TypeError "ufunc 'isfinite' not supported for the input types") <->
    (exists p, only_one res (metric (par d)) p) /\ forall nr, In nr res -> r_rel (snd nr) = None.
Proof.
  intros res d. unfold effects_figure.
  assert (AL : forallb no_relative res = true <-> forall nr, In nr res -> r_rel (snd nr) = None).
  { rewrite forallb_forall. unfold no_relative. split; intros H nr I; specialize (H nr I); [destruct (r_rel (snd nr)); congruence|now rewrite H]. }
  assert (NT : forall e, Bars_Model.plot_effects (map effect_row res) (metric (par d)) = Err e -> exists x, e = ValueError x).
  { assert (EB : forall l e, Bars_Model.error_bars l = Err e -> exists x, e = ValueError x).
    { intros l e X. now apply (Bars_Props.c76_failures_are_value_errors l e). }
    intros e. unfold Bars_Model.plot_effects. destruct (filter _ _) as [|p [|q l]]; try (intros [= <-]; eauto; fail).
    intros X. match type of X with bind ?t _ = _ => destruct t eqn:A end; cbn [bind] in X; [|injection X as <-; eauto].
    match type of X with bind ?t _ = _ => destruct t eqn:B end; cbn [bind] in X; [|injection X as <-; eauto].
    match type of X with bind ?t _ = _ => destruct t eqn:C end; cbn [bind] in X; [discriminate|injection X as <-; eauto]. }
  destruct (filter (fun nr => String.eqb (Bars_Model.lower (fst nr)) (Bars_Model.lower (metric (par d)))) res) as [|p [|q l]] eqn:F.
  - split; [intros X; apply NT in X as (x & X); discriminate|]. intros ((p & O) & _). apply only_one_filter in O. rewrite F in O. discriminate.
  - apply only_one_filter in F. destruct (forallb no_relative res) eqn:NRE.
    + split; auto. intros _. split; [eauto|]. now apply AL.
    + split; [intros X; apply NT in X as (x & X); discriminate|]. intros (_ & X). apply AL in X. congruence.
  - split; [intros X; apply NT in X as (x & X); discriminate|]. intros ((p' & O) & _). apply only_one_filter in O. rewrite F in O. discriminate.
Qed.

(** a primary metric with an interval around its estimate, and one without a relative difference *)
Definition some_result (rel low up : option num) : tresult :=
  mkTR true (1 / 20)%R (Fin (1 / 100)) (Fin 3) (Fin 1) (Fin (1 / 2)) (Fin 2) rel low up (Fin (1 / 3)) 10 (Fin 8) (Fin 5).
Example c93_figure_example :
  (exists fig, effects_figure [("Clicks", some_result (Some (Fin (1 / 5))) (Some (Fin (1 / 10))) (Some (Fin (2 / 5))))] Experiment_Props.ex_exp_design = Ok fig) /\
  effects_figure [("Clicks", some_result None None None)] Experiment_Props.ex_exp_design = Err (TypeError "ufunc 'isfinite' not supported for the input types").
Proof.
  set (r := some_result (Some (Fin (1 / 5))) (Some (Fin (1 / 10))) (Some (Fin (2 / 5)))).
  assert (O : forall x, only_one [("Clicks", x)] (metric (par Experiment_Props.ex_exp_design)) ("Clicks", x)) by (intros x; exists [], []; split; [reflexivity|]; split; [reflexivity|intros ? []]).
  assert (NO : forall s, others [("Clicks", r)] (metric (par Experiment_Props.ex_exp_design)) s []).
  { intros s i. split; [intros []|]. intros (nr & [<-|[]] & N & _). apply N. reflexivity. }
  split.
  - apply (c93_figure_is_drawn_iff _ _ [] [] (NO true) (NO false)). split; [exists ("Clicks", r), (Fin (1 / 5)); split; [now left|reflexivity]|].
    exists ("Clicks", r). split; [apply O|]. split; [|split; intros i []]. exists (1 / 5)%R, (1 / 10)%R, (2 / 5)%R. cbn. split; [now left|]. split; auto. split; auto. lra.
  - apply c93_figure_without_relative_differences. split; [eauto|]. intros nr [<-|[]]. reflexivity.
Qed.

(* ------------------------------------------------------------------ *)
(** *** C24: unknown names are ValueErrors *)
Theorem c24_unknown_names_are_value_errors :
  forall by_date binom v d m metrics start concluded neg skip n, In n skip -> ~ In n registered ->
    (exists x, validate_historical_data by_date v m skip = Err (ValueError x)) /\
    (exists x, validate_experiment_data by_date binom v d metrics start concluded neg skip = Err (ValueError x)).
Proof.
  intros by_date binom v d m metrics start concluded neg skip n I N.
  destruct (c24_unknown_skip_name_is_rejected_first by_date binom v d m metrics start concluded neg skip n I N) as (n' & _ & _ & A & B).
  split; eexists; [exact A|exact B].
Qed.

(* ------------------------------------------------------------------ *)
(** *** C77, C82: missing values count nothing in sums *)
Definition cell (o : option R) : num := match o with Some x => Fin x | None => NaN end.
Definition known_part (o : option R) : R := match o with Some x => x | None => 0%R end.
Definition known_sum (l : list (option R)) : R := fold_right (fun o acc => (known_part o + acc)%R) 0%R l.
Lemma skipna_known l : skipna_sum (map cell l) = Fin (known_sum l).
Proof.
  unfold skipna_sum. induction l as [|[x|] l IH]; cbn [map filter cell known_sum fold_right known_part]; [reflexivity| |].
  - cbn [nsum]. rewrite IH. reflexivity.
  - rewrite IH. fold (known_sum l). f_equal. ring.
Qed.
Theorem c77_missing_values_count_nothing :
  forall (value : prow -> option R) rows item, (forall r, In r rows -> p_value r = cell (value r)) ->
    let own := filter (fun r => andb (String.eqb (p_period r) "pretest") (String.eqb (p_item r) item)) rows in
    own <> [] -> pretest_total rows item = Fin (known_sum (map value own)).
Proof.
  intros value rows item H own N. unfold pretest_total. change (fun r => andb (is_pretest r) (String.eqb (p_item r) item)) with (fun r => andb (String.eqb (p_period r) "pretest") (String.eqb (p_item r) item)).
  fold own. destruct own as [|r0 l0] eqn:E; [congruence|]. rewrite <- E.
  rewrite <- skipna_known, map_map. f_equal. apply map_ext_in. intros r Hr. apply H. rewrite E in Hr. rewrite <- E in Hr. now apply filter_In in Hr as [Hr _].
Qed.
Theorem c82_missing_values_count_nothing :
  forall (value : History_Model.hrow -> option R) rows w t, (forall r, In r rows -> History_Model.h_value r = cell (value r)) ->
    In (w, t) (History_Model.weekly_totals rows) ->
    t = Fin (known_sum (map value (filter (fun r => match History_Model.h_week r with Some v => Z.eqb w v | None => false end) rows))).
Proof.
  intros value rows w t H I. unfold History_Model.weekly_totals in I. apply in_map_iff in I as (w' & E & _). injection E as -> <-.
  rewrite <- skipna_known, map_map. f_equal. apply map_ext_in. intros r Hr. apply H. now apply filter_In in Hr as [Hr _].
Qed.
Example c77_missing_example :
  pretest_total [mkPR "a" (Some 0%Z) "pretest" NaN; mkPR "a" (Some 1%Z) "pretest" (Fin 2); mkPR "b" (Some 0%Z) "pretest" (Fin 5)] "a" = Fin 2.
Proof.
  rewrite (c77_missing_values_count_nothing (fun r => match p_value r with Fin x => Some x | _ => None end)); [cbn; f_equal; ring| |discriminate].
  intros r [<-|[<-|[<-|[]]]]; reflexivity.
Qed.

(* ------------------------------------------------------------------ *)
(** *** C74: texts of infinite and missing numbers *)
Definition plus_inf : f64 := B754_infinity false.
Definition minus_inf : f64 := B754_infinity true.
Theorem c74_texts_of_unbounded_intervals :
  forall d x,
    format_relative_ci d minus_inf x = ("-inf% to " ++ signed_percent d x)%string /\
    format_relative_ci d x plus_inf = (signed_percent d x ++ " to +inf%")%string /\
    format_relative_ci d B754_nan B754_nan = "+nan% to +nan%" /\
    fixed d plus_inf = "inf" /\ fixed d minus_inf = "-inf" /\ fixed d B754_nan = "nan".
Proof.
  intros d x. unfold format_relative_ci.
  assert (A : signed_percent d minus_inf = "-inf%") by reflexivity. assert (B : signed_percent d plus_inf = "+inf%") by reflexivity.
  assert (C : signed_percent d B754_nan = "+nan%") by reflexivity. rewrite A, B, C. repeat split.
Qed.

Print Assumptions c76_capital_letters_are_lowered.
Print Assumptions c93_figure_is_drawn_iff.
Print Assumptions c93_figure_without_relative_differences.
Print Assumptions c24_unknown_names_are_value_errors.
Print Assumptions c77_missing_values_count_nothing.
Print Assumptions c82_missing_values_count_nothing.
Print Assumptions c74_texts_of_unbounded_intervals.
