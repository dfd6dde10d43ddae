(** C92: the deep dive shows the simulations behind the reported rates. *)
From Coq Require Import ZArith Reals Lia Lra List String Bool.
From Flocq Require Import Core BinarySingleNaN.
Require Import Verif.Base Verif.Num Verif.Frame Verif.F64 Verif.ListLib Verif.Design_Model Verif.Stats_Model
  Verif.Pivot_Model Verif.Analysis_Model Verif.Simulation_Model Verif.Deepdive_Model Verif.Sim_Boot_Props Verif.Trimmed_Props Verif.Stats_Props
  Verif.Tests_Proofs Verif.Analysis_Props2 Verif.Sim_State_Props.
Import ListNotations.
Open Scope string_scope.
Open Scope list_scope.
Open Scope R_scope.

(** *** What a histogram shows *)
(** [v] are the numbers of [l], in their order *)
Inductive numbers_of : list num -> list R -> Prop :=
| no_numbers : numbers_of [] []
| one_number r l v : numbers_of l v -> numbers_of (Fin r :: l) (r :: v)
| not_a_number x l v : (forall r, x <> Fin r) -> numbers_of l v -> numbers_of (x :: l) v.
(** between the edges number [i] and [i + 1]; the last bar has its right edge too *)
Definition in_bar (edges : list R) (i : nat) (x : R) : Prop :=
  exists a b, nth_error edges i = Some a /\ nth_error edges (S i) = Some b /\ a <= x /\ (x < b \/ (x = b /\ nth_error edges (S (S i)) = None)).
(** the bars of a series *)
Definition shows (l : list num) (label : option string) (m : mark) : Prop :=
  exists v edges heights, m = Bars v edges heights label /\ numbers_of l v /\
    S (List.length heights) = Nat.max 1 (List.length edges) /\
    forall i h, nth_error heights i = Some h -> count (in_bar edges i) v h.
Definition drawable (l : list num) : Prop := ~ In PInf l /\ ~ In NInf l /\ exists r, In (Fin r) l.
(** the edges reach from below the smallest to above the largest value *)
Definition covers (edges v : list R) : Prop :=
  (2 <= List.length edges)%nat /\ (forall i a b, nth_error edges i = Some a -> nth_error edges (S i) = Some b -> a < b) /\
  (forall x a, In x v -> hd_error edges = Some a -> a <= x) /\ (forall x, In x v -> x <= last edges 0).

Lemma count_filter {A} (P : A -> Prop) f (l : list A) : (forall a, f a = true <-> P a) -> count P l (List.length (filter f l)).
Proof.
  intros E. induction l as [|a l IH]; [constructor|]. cbn [filter]. destruct (f a) eqn:F.
  - cbn [List.length]. apply count_yes; auto. now apply E.
  - apply count_no; auto. intros X. apply E in X. congruence.
Qed.

Lemma numbers_spec l : numbers_of l (numbers l).
Proof. induction l as [|[r| | |] l IH]; [constructor|cbn; now constructor|..]; (apply not_a_number; [discriminate|exact IH]). Qed.
Lemma numbers_In l r : In r (numbers l) <-> In (Fin r) l.
Proof.
  unfold numbers. rewrite in_flat_map. split.
  - intros (x & Hx & Hr). destruct x; [|destruct Hr..]. destruct Hr as [<-|[]]. exact Hx.
  - intros H. exists (Fin r). split; [exact H|now left].
Qed.
Lemma numbers_of_unique l v : numbers_of l v -> v = numbers l.
Proof.
  induction 1 as [|r l v _ IH|x l v N _ IH]; [reflexivity|cbn; now rewrite IH|]. destruct x; [exfalso; now apply (N r)|..]; exact IH.
Qed.

Lemma bar_heights_spec edges v : S (List.length (bar_heights edges v)) = Nat.max 1 (List.length edges) /\
  forall i h, nth_error (bar_heights edges v) i = Some h -> count (in_bar edges i) v h.
Proof.
  induction edges as [|a edges IH]; [split; [reflexivity|]; intros [|i] h E; discriminate|].
  destruct edges as [|b rest]; [split; [reflexivity|]; intros [|i] h E; discriminate|].
  destruct IH as [IL IC]. split; [cbn [bar_heights List.length] in *; lia|].
  intros [|i] h E; cbn [bar_heights nth_error] in E.
  - assert (EH : List.length (filter (fun x => andb (Rle_bool a x) (match rest with [] => Rle_bool x b | _ => Rlt_bool x b end)) v) = h) by congruence.
    rewrite <- EH. apply count_filter. intros x. rewrite andb_true_iff.
    assert (LE : forall u w, Rle_bool u w = true <-> u <= w) by (intros u w; destruct (Rle_bool_spec u w); split; auto; try discriminate; lra).
    assert (LT : forall u w, Rlt_bool u w = true <-> u < w) by (intros u w; destruct (Rlt_bool_spec u w); split; auto; try discriminate; lra).
    rewrite LE. unfold in_bar. cbn [nth_error]. destruct rest as [|c rest].
    + rewrite LE. split.
      * intros [L1 L2]. exists a, b. repeat (split; auto). destruct (Rle_lt_or_eq_dec x b L2); auto.
      * intros (a' & b' & Ea & Eb & L1 & L2). assert (a' = a) by congruence. assert (b' = b) by congruence. subst. split; [lra|]. destruct L2 as [L2|[-> _]]; lra.
    + rewrite LT. split.
      * intros [L1 L2]. exists a, b. repeat (split; auto).
      * intros (a' & b' & Ea & Eb & L1 & L2). assert (a' = a) by congruence. assert (b' = b) by congruence. subst. split; [lra|]. destruct L2 as [L2|[_ X]]; [lra|discriminate].
  - exact (IC i h E).
Qed.

Section Plot.
Context (edges_of : list R -> list R).

Lemma hist_ok l label m : hist edges_of l label = Ok m -> l <> [] -> drawable l /\ shows l label m /\ m = Bars (numbers l) (edges_of (numbers l)) (bar_heights (edges_of (numbers l)) (numbers l)) label.
Proof.
  intros H N. unfold hist in H. destruct (existsb is_infinite l) eqn:EI; [discriminate|].
  assert (NI : forall x, In x l -> is_infinite x = false) by (intros x Hx; apply not_true_iff_false; intros E; apply not_true_iff_false in EI; apply EI, existsb_exists; eauto).
  destruct l as [|x0 l0]; [congruence|]. set (l := x0 :: l0) in *.
  destruct (numbers l) as [|r v] eqn:EN; [discriminate|]. split; [|split].
  - split; [|split]; [intros X; now apply NI in X..|]. exists r. apply numbers_In. rewrite EN. now left.
  - exists (numbers l). rewrite EN. exists (edges_of (r :: v)), (bar_heights (edges_of (r :: v)) (r :: v)). split; [congruence|].
    split; [rewrite <- EN; apply numbers_spec|]. apply bar_heights_spec.
  - congruence.
Qed.
Lemma hist_total l label : drawable l -> exists m, hist edges_of l label = Ok m.
Proof.
  intros (N1 & N2 & r & Hr). unfold hist. replace (existsb is_infinite l) with false.
  - apply numbers_In in Hr. destruct (numbers l); [destruct Hr|]. destruct l; eauto.
  - symmetry. apply not_true_iff_false. intros E. apply existsb_exists in E as (x & Hx & E). destruct x; try discriminate; auto.
Qed.
Lemma hist_error l label e : hist edges_of l label = Err e -> e <> ValueError "Cannot plot deep dive because the validation has not been run." .
Proof.
  unfold hist. destruct (existsb is_infinite l); [congruence|]. destruct (numbers l), l; congruence.
Qed.

Lemma density_ok data column field ax xl yl label out :
  make_density_plot edges_of data column field ax xl yl label = Ok out ->
  drawable (map field data) /\ exists m, shows (map field data) label m /\ ax_marks out = ax_marks ax ++ [m] /\
    m = Bars (numbers (map field data)) (edges_of (numbers (map field data))) (bar_heights (edges_of (numbers (map field data))) (numbers (map field data))) label /\
    ax_x out = or_else xl column /\ ax_y out = or_else yl "Number of Items".
Proof.
  unfold make_density_plot, column_of. destruct data as [|d data]; [discriminate|]. cbn [bind]. intros H. apply bind_ok in H as (m & H1 & H2).
  destruct (hist_ok _ _ _ H1 ltac:(discriminate)) as (A & B & C). split; auto. exists m.
  match type of H2 with Ok ?x = _ => assert (X : out = x) by congruence end. subst out. cbn [ax_marks ax_x ax_y]. auto.
Qed.
Lemma density_total data column field ax xl yl label : drawable (map field data) ->
  exists out, make_density_plot edges_of data column field ax xl yl label = Ok out.
Proof.
  intros D. unfold make_density_plot, column_of. destruct data as [|d data]; [destruct D as (_ & _ & r & [])|]. cbn [bind].
  destruct (hist_total _ label D) as (m & ->). cbn [bind]. eauto.
Qed.
Lemma density_error data column field ax xl yl label e :
  make_density_plot edges_of data column field ax xl yl label = Err e -> e <> ValueError "Cannot plot deep dive because the validation has not been run.".
Proof.
  unfold make_density_plot, column_of. destruct data as [|d data]; [cbn; congruence|]. cbn [bind].
  destruct (hist edges_of _ label) as [m|e'] eqn:E; cbn [bind]; [discriminate|]. intros X. assert (e = e') by congruence. subst. now apply hist_error in E.
Qed.

(** the axes of a figure *)
Record drawn (aa ab : list tresult) (mde : num) (axes : list axis) : Prop := mkDrawn {
  dr_marks : exists e0 e1 p0 p1, map ax_marks axes = [[e0; Line (Fin 0); e1; Line mde]; [p0]; [p1]] /\
    shows (map r_abs aa) (Some "A/A absolute difference") e0 /\ shows (map r_abs ab) (Some "A/B absolute difference") e1 /\
    shows (map r_p_value aa) None p0 /\ shows (map r_p_value ab) None p1;
  dr_x : map ax_x axes = ["Effect Size"; "P-Values (A/A)"; "P-Values (A/B)"];
  dr_y : map ax_y axes = ["Density"; "Count"; "Count"];
  dr_title : map ax_title axes =
    ["Check that effect estimates (shaded areas)" ++ newline ++ "are centered on the true effects (dashed lines)";
     "Check that the p-values from the A/A test" ++ newline ++ "are uniformly distributed between 0 and 1.";
     "Check that the p-values from the A/B test" ++ newline ++ "are skewed towards 0."]%string
}.

Lemma plot_cases s aa ab mde : sm_aa s = Some aa -> sm_ab s = Some ab -> sm_mde s = Some mde -> aa <> [] ->
  (is_ok (plot_deep_dive edges_of s) <->
   drawable (map r_abs aa) /\ drawable (map r_abs ab) /\ drawable (map r_p_value aa) /\ drawable (map r_p_value ab)) /\
  (forall axes, plot_deep_dive edges_of s = Ok axes -> drawn aa ab mde axes).
Proof.
  intros EA EB EM NA. unfold plot_deep_dive, simulated_false_positive_rate, ab_results. rewrite EA, EB, EM.
  destruct (is_statistically_significant s aa) as [sg|e] eqn:ES.
  2:{ exfalso. unfold is_statistically_significant, column_of in ES. destruct aa; [congruence|discriminate]. }
  cbn [bind]. split.
  - split.
    + intros (axes & H). destruct (make_density_plot edges_of aa _ r_abs _ _ _ _) as [a0|] eqn:E0; [|discriminate]. cbn [bind] in H.
      destruct (make_density_plot edges_of ab _ r_abs _ _ _ _) as [a1|] eqn:E1; [|discriminate]. cbn [bind] in H.
      destruct (make_density_plot edges_of aa _ r_p_value _ _ _ _) as [a2|] eqn:E2; [|discriminate]. cbn [bind] in H.
      destruct (make_density_plot edges_of ab _ r_p_value _ _ _ _) as [a3|] eqn:E3; [|discriminate].
      apply density_ok in E0 as [D0 _]. apply density_ok in E1 as [D1 _]. apply density_ok in E2 as [D2 _]. apply density_ok in E3 as [D3 _]. auto.
    + intros (D0 & D1 & D2 & D3).
      edestruct (density_total aa "absolute_difference" r_abs) as (a0 & ->); [exact D0|]. cbn [bind].
      edestruct (density_total ab "absolute_difference" r_abs) as (a1 & ->); [exact D1|]. cbn [bind].
      edestruct (density_total aa "p_value" r_p_value) as (a2 & ->); [exact D2|]. cbn [bind].
      edestruct (density_total ab "p_value" r_p_value) as (a3 & ->); [exact D3|]. eexists. reflexivity.
  - intros axes H. apply bind_ok in H as (a0 & E0 & H). apply bind_ok in H as (a1 & E1 & H). apply bind_ok in H as (a2 & E2 & H). apply bind_ok in H as (a3 & E3 & H).
    apply density_ok in E0 as (_ & m0 & S0 & M0 & _ & _ & _). apply density_ok in E1 as (_ & m1 & S1 & M1 & _ & X1 & Y1).
    apply density_ok in E2 as (_ & m2 & S2 & M2 & _ & X2 & Y2). apply density_ok in E3 as (_ & m3 & S3 & M3 & _ & X3 & Y3).
    match type of H with Ok ?x = _ => assert (X : axes = x) by congruence end. subst axes. constructor.
    + exists m0, m1, m2, m3. cbn [map ax_marks set_title axvline] in *. rewrite M1, M2, M3, M0. split; [reflexivity|]. auto.
    + cbn [map ax_x set_title axvline] in *. rewrite X1, X2, X3. reflexivity.
    + cbn [map ax_y set_title axvline] in *. rewrite Y1, Y2, Y3. reflexivity.
    + reflexivity.
Qed.

Section State.
Context (T : tdist) (argsort : list num -> list nat) {G : Type} (shuffle_of sample_of : G -> nat -> list nat * G)
  (arms_of : G -> nat -> list Z * G) (choice_of : G -> list Z -> Z * G).

(** the message that the validation has not been run is given exactly if no validation has succeeded *)
Theorem c92_says_not_validated_exactly_if_so :
  forall d f item week minimum period treat threshold s x h y,
    mk_sim d f item week minimum period treat threshold = Ok s ->
    history T argsort shuffle_of sample_of arms_of choice_of (s, x) h y ->
    (plot_deep_dive edges_of (fst y) = Err (ValueError "Cannot plot deep dive because the validation has not been run.") <->
     ~ succeeded is_validate h).
Proof.
  intros d f item week minimum period treat threshold s x h y HS HH.
  destruct (c71_attributes_tell_what_has_succeeded _ _ _ _ _ _ _ _ _ _ _ _ _ _ _ _ _ _ HS HH) as (_ & _ & _ & _ & _ & HA & HB & _).
  assert (HN : sm_aa (fst y) = None <-> ~ succeeded is_validate h).
  { rewrite <- HA. destruct (sm_aa (fst y)); split; try congruence. intros X. exfalso. apply X. discriminate. }
  rewrite <- HN. unfold plot_deep_dive, simulated_false_positive_rate. split.
  - intros H. destruct (sm_aa (fst y)) as [aa|]; [exfalso|reflexivity].
    destruct (is_statistically_significant (fst y) aa) as [sg|e] eqn:ES; cbn [bind] in H.
    2:{ unfold is_statistically_significant, column_of in ES. destruct aa; cbn in ES; congruence. }
    destruct (make_density_plot edges_of aa _ r_abs _ _ _ _) as [a0|] eqn:E0; cbn [bind] in H; [|apply density_error in E0; congruence].
    destruct (ab_results (fst y)) as [ab|e] eqn:EB; cbn [bind] in H; [|unfold ab_results in EB; destruct (sm_ab (fst y)); congruence].
    destruct (make_density_plot edges_of ab _ r_abs _ _ _ _) as [a1|] eqn:E1; cbn [bind] in H; [|apply density_error in E1; congruence].
    destruct (sm_mde (fst y)) as [mde|]; cbn [bind] in H; [|discriminate].
    destruct (make_density_plot edges_of aa _ r_p_value _ _ _ _) as [a2|] eqn:E2; cbn [bind] in H; [|apply density_error in E2; congruence].
    destruct (make_density_plot edges_of ab _ r_p_value _ _ _ _) as [a3|] eqn:E3; cbn [bind] in H; [discriminate|apply density_error in E3; congruence].
  - intros ->. reflexivity.
Qed.

(** a validation of no simulation leaves nothing to plot *)
Theorem c92_no_simulations_is_a_key_error :
  forall y y', perform T argsort shuffle_of sample_of arms_of choice_of (Validate 0) y = (y', Ok tt) ->
    plot_deep_dive edges_of (fst y') = Err (KeyError "column").
Proof.
  intros y y' H. apply c71_one_result_per_simulation in H as (aa & ab & EA & EB & LA & LB). destruct aa; [|discriminate].
  unfold plot_deep_dive, simulated_false_positive_rate. rewrite EA. reflexivity.
Qed.

(** after a validation of some simulations, there is a figure exactly if each of the four series has a number
    and no infinite value; it shows the series, with lines at zero and the estimated effect *)
Theorem c92_what_is_drawn :
  forall n y y', perform T argsort shuffle_of sample_of arms_of choice_of (Validate n) y = (y', Ok tt) -> (0 < n)%nat ->
    exists aa ab mde, sm_aa (fst y') = Some aa /\ sm_ab (fst y') = Some ab /\ sm_mde (fst y') = Some mde /\ sm_mde (fst y) = Some mde /\
      List.length aa = n /\ List.length ab = n /\
      (is_ok (plot_deep_dive edges_of (fst y')) <->
       drawable (map r_abs aa) /\ drawable (map r_abs ab) /\ drawable (map r_p_value aa) /\ drawable (map r_p_value ab)) /\
      (forall axes, plot_deep_dive edges_of (fst y') = Ok axes -> drawn aa ab mde axes).
Proof.
  intros n y y' H L. destruct (perform_attributes _ _ _ _ _ _ _ _ _ H) as (_ & M0 & M1 & _ & _ & _ & aa & ab & EA & EB & LA & LB).
  destruct (sm_mde (fst y)) as [mde|] eqn:EM; [|congruence]. exists aa, ab, mde.
  destruct (plot_cases (fst y') aa ab mde EA EB M1) as [P1 P2]; [intros ->; cbn in LA; lia|]. auto 10.
Qed.
End State.
End Plot.

(** *** Every number drawn is in exactly one bar *)
Lemma count_none {A} (P : A -> Prop) (l : list A) : (forall a, In a l -> ~ P a) -> count P l 0.
Proof. induction l as [|a l IH]; intros H; [constructor|]. apply count_no; [apply H; now left|]. apply IH. intros b Hb. apply H. now right. Qed.

Lemma in_one_bar edges x : (2 <= List.length edges)%nat -> (forall i a b, nth_error edges i = Some a -> nth_error edges (S i) = Some b -> a < b) ->
  (forall a, hd_error edges = Some a -> a <= x) -> x <= last edges 0 ->
  exists i, (S i < List.length edges)%nat /\ in_bar edges i x /\ forall j, in_bar edges j x -> j = i.
Proof.
  induction edges as [|a edges IH]; intros L INC LO HI; [cbn in L; lia|]. destruct edges as [|b rest]; [cbn in L; lia|].
  assert (La : a <= x) by (apply LO; reflexivity). assert (MON : forall j u, nth_error (b :: rest) j = Some u -> b <= u).
  { clear - INC. intros j. induction j as [|j IH]; intros u E; cbn in E; [replace u with b by congruence; lra|].
    destruct (nth_error (b :: rest) j) as [w|] eqn:EW.
    - assert (b <= w) by now apply IH. assert (w < u); [|lra]. apply (INC (S j) w u); [exact EW|exact E].
    - exfalso. apply nth_error_None in EW. assert (nth_error rest j <> None) by congruence. apply nth_error_Some in H. cbn in EW. lia. }
  assert (FIRST : x < b \/ (x = b /\ rest = []) -> exists i, (S i < List.length (a :: b :: rest))%nat /\ in_bar (a :: b :: rest) i x /\ forall j, in_bar (a :: b :: rest) j x -> j = i).
  { intros C. exists 0%nat. split; [cbn; lia|]. split.
    - exists a, b. cbn [nth_error]. repeat (split; auto). destruct C as [C|[C ->]]; auto.
    - intros [|j] (u & w & E1 & E2 & L1 & L2); [reflexivity|exfalso]. cbn [nth_error] in E1.
      assert (b <= u) by (apply (MON j); exact E1). destruct C as [C|[C ->]]; [lra|]. cbn in E2. destruct j; discriminate. }
  destruct (Rlt_le_dec x b) as [C|C]; [auto|]. destruct rest as [|c rest].
  - apply FIRST. cbn in HI. right. split; [lra|reflexivity].
  - destruct IH as (i & Li & Bi & Ui); [cbn in *; lia| |intros u E; assert (u = b) by (cbn in E; congruence); subst; lra|exact HI|].
    + intros j u w E1 E2. apply (INC (S j) u w); assumption.
    + exists (S i). split; [cbn in *; lia|]. split; [exact Bi|]. intros [|j] B; [exfalso|f_equal; now apply Ui].
      destruct B as (u & w & E1 & E2 & L1 & [L2|[_ X]]); [|discriminate]. cbn in E2. assert (w = b) by congruence. subst. lra.
Qed.

Theorem c92_every_number_is_in_one_bar :
  forall l label v edges heights, shows l label (Bars v edges heights label) -> covers edges v ->
    fold_right Nat.add 0%nat heights = List.length v /\
    forall x, In (Fin x) l -> exists i, (i < List.length heights)%nat /\ in_bar edges i x /\ forall j, in_bar edges j x -> j = i.
Proof.
  intros l label v edges heights (v' & edges' & heights' & E & NO & LH & CT) (CL & CI & CF & CB).
  assert (v' = v /\ edges' = edges /\ heights' = heights) as (-> & -> & ->) by (split; [|split]; congruence). clear E.
  assert (ONE : forall x, In x v -> exists i, (i < List.length heights)%nat /\ in_bar edges i x /\ forall j, in_bar edges j x -> j = i).
  { intros x Hx. destruct (in_one_bar edges x CL CI (fun a Ha => CF x a Hx Ha) (CB x Hx)) as (i & Li & Bi & Ui). exists i. split; [lia|auto]. }
  split.
  - clear NO CF CB LH CL CI l label.
    revert heights CT ONE. induction v as [|x v IH]; intros heights CT ONE.
    + cbn. assert (Z : forall h, In h heights -> h = 0%nat).
      { intros h Hh. apply In_nth_error in Hh as (i & Hi). specialize (CT i h Hi). now inversion CT. }
      clear - Z. induction heights as [|h hs IH]; [reflexivity|]. cbn. rewrite (Z h (or_introl eq_refl)). apply IH. intros k Hk. apply Z. now right.
    + destruct (ONE x (or_introl eq_refl)) as (i & Li & Bi & Ui).
      (* the heights without the first value *)
      destruct (nth_error heights i) as [hi|] eqn:Ei; [|apply nth_error_None in Ei; lia].
      assert (Hi := CT i hi Ei). inversion Hi as [|a l0 k P Q|a l0 k P Q]; subst; [|contradiction].
      apply nth_error_split in Ei as (h1 & h2 & EH & EL).
      assert (IHH := IH (h1 ++ k :: h2)).
      assert (SUM : forall a b c, fold_right Nat.add 0%nat (a ++ b :: c) = (fold_right Nat.add 0 a + (b + fold_right Nat.add 0 c))%nat).
      { clear. induction a as [|z a IHa]; intros b c; cbn; [lia|]. rewrite IHa. lia. }
      rewrite EH, SUM. rewrite SUM in IHH. cbn [List.length]. rewrite <- IHH; [lia| |].
      * intros j h Ej. destruct (Nat.eq_dec j i) as [->|NJ].
        { rewrite nth_error_app2, EL, Nat.sub_diag in Ej by lia. cbn in Ej. assert (h = k) by congruence. now subst. }
        assert (Ej' : nth_error heights j = Some h).
        { rewrite EH. destruct (Nat.lt_ge_cases j (List.length h1)) as [Lj|Lj].
          - rewrite nth_error_app1 in Ej |- * by auto. exact Ej.
          - rewrite nth_error_app2 in Ej |- * by auto. destruct (j - List.length h1)%nat eqn:D; [lia|]. exact Ej. }
        assert (C := CT j h Ej'). inversion C as [|a l0 k' P' Q'|a l0 k' P' Q']; subst; [|exact Q']. exfalso. apply NJ. now apply Ui.
      * intros z Hz. destruct (ONE z (or_intror Hz)) as (i' & Li' & R'). exists i'. split; [|exact R']. rewrite EH in Li'. rewrite app_length in *. cbn in *. lia.
  - intros x Hx. apply ONE. rewrite (numbers_of_unique _ _ NO). now apply numbers_In.
Qed.

(** *** The reported rates and the drawn p-values *)
Lemma numbers_count a l : ~ In NInf (map r_p_value l) -> forall k, count (fun t => below a (r_p_value t)) l k -> count (fun x => x < a) (numbers (map r_p_value l)) k.
Proof.
  intros NI k C. induction C as [|t l k P C IH|t l k P C IH]; [constructor|..].
  - assert (IH' := IH (fun X => NI (or_intror X))). destruct P as [E|(x & E & L)]; [exfalso; apply NI; now left|].
    cbn [map]. rewrite E. cbn. constructor; auto.
  - assert (IH' := IH (fun X => NI (or_intror X))). cbn [map numbers flat_map]. destruct (r_p_value t) as [x| | |] eqn:E; auto.
    cbn. apply count_no; auto. intros L. apply P. right. exists x. auto.
Qed.
Lemma numbers_length l : (List.length (numbers l) <= List.length l)%nat /\ (List.length (numbers l) = List.length l <-> forall x, In x l -> exists r, x = Fin r).
Proof.
  induction l as [|x l [IL IE]]; [cbn; split; [lia|]; split; [intros _ x []|reflexivity]|].
  destruct x as [r| | |]; cbn [numbers flat_map app List.length]; fold (numbers l).
  - split; [lia|]. split.
    + intros E y [<-|Hy]; [eauto|]. apply IE; [lia|exact Hy].
    + intros H. f_equal. apply IE. intros y Hy. apply H. now right.
  - split; [lia|]. split; [lia|]. intros H. destruct (H PInf (or_introl eq_refl)). discriminate.
  - split; [lia|]. split; [lia|]. intros H. destruct (H NInf (or_introl eq_refl)). discriminate.
  - split; [lia|]. split; [lia|]. intros H. destruct (H NaN (or_introl eq_refl)). discriminate.
Qed.

(** the reported false positive rate (power) is the number of drawn A/A (A/B) p-values below the level, divided by
    the number of simulations; that is the drawn share exactly if no p-value is missing or none is below the level *)
Theorem c92_rates_are_shares_of_the_simulations :
  forall edges_of s aa ab mde axes, sm_aa s = Some aa -> sm_ab s = Some ab -> sm_mde s = Some mde -> aa <> [] ->
    plot_deep_dive edges_of s = Ok axes ->
    exists v e h w e' h' k j, map ax_marks (tl axes) = [[Bars v e h None]; [Bars w e' h' None]] /\
      let level := B2R (alpha (par (sm_design s))) in
      count (fun x => x < level) v k /\ count (fun x => x < level) w j /\
      simulated_false_positive_rate s = Ok (Some (Fin (INR k / INR (List.length aa)))) /\
      simulated_power s = Ok (Some (Fin (INR j / INR (List.length ab)))) /\
      (0 < List.length v <= List.length aa)%nat /\ (0 < List.length w <= List.length ab)%nat /\
      (INR k / INR (List.length v) = INR k / INR (List.length aa) <-> ~ In NaN (map r_p_value aa) \/ k = 0%nat) /\
      (INR j / INR (List.length w) = INR j / INR (List.length ab) <-> ~ In NaN (map r_p_value ab) \/ j = 0%nat).
Proof.
  intros edges_of s aa ab mde axes EA EB EM NA HP.
  destruct (plot_cases edges_of s aa ab mde EA EB EM NA) as [[P1 _] P2].
  assert (OKP : is_ok (plot_deep_dive edges_of s)) by (rewrite HP; now eexists).
  apply P1 in OKP as (_ & D1 & (A1 & A2 & ra & A3) & (B1 & B2 & rb & B3)). destruct (P2 _ HP) as [(e0 & e1 & p0 & p1 & EX & _ & _ & S0 & S1) _ _ _].
  destruct S0 as (v & e & h & -> & N0 & _). destruct S1 as (w & e' & h' & -> & N1 & _).
  assert (LA : (0 < List.length aa)%nat) by (destruct aa; [congruence|cbn; lia]).
  assert (LB : (0 < List.length ab)%nat) by (destruct ab; [destruct B3|cbn; lia]).
  destruct (c72_rates_are_fractions_of_significant_simulations (fun _ _ _ _ => Ok NaN) s aa ab EA EB LA LB) as (k & j & C1 & C2 & R1 & R2 & _).
  apply numbers_of_unique in N0, N1. exists v, e, h, w, e', h', k, j.
  split. { destruct axes as [|a0 axes]; [discriminate|]. cbn [map tl] in *. congruence. }
  intros level. rewrite N0, N1. split; [now apply numbers_count|]. split; [now apply numbers_count|]. split; [exact R1|]. split; [exact R2|].
  assert (POS : forall l x, In (Fin x) l -> (0 < List.length (numbers l))%nat) by (intros l x Hx; apply numbers_In in Hx; destruct (numbers l); [destruct Hx|cbn; lia]).
  assert (FULL : forall l, ~ In PInf l -> ~ In NInf l -> (List.length (numbers l) = List.length l <-> ~ In NaN l)).
  { intros l I1 I2. rewrite (proj2 (numbers_length l)). split.
    - intros H X. destruct (H _ X). discriminate.
    - intros H [x| | |] Hx; try contradiction. eauto. }
  assert (SH : forall k n m, (0 < n)%nat -> (0 < m)%nat -> (INR k / INR n = INR k / INR m <-> n = m \/ k = 0%nat)).
  { intros k' n m Ln Lm. apply lt_0_INR in Ln, Lm. split.
    - intros E. destruct (Nat.eq_dec k' 0) as [->|NK]; [auto|left]. apply INR_eq. apply (f_equal (fun z => z * INR n * INR m)) in E.
      assert (0 < INR k') by (apply lt_0_INR; lia).
      replace (INR k' / INR n * INR n * INR m) with (INR k' * INR m) in E by (field; lra).
      replace (INR k' / INR m * INR n * INR m) with (INR k' * INR n) in E by (field; lra). nra.
    - intros [->| ->]; [reflexivity|]. cbn. unfold Rdiv. now rewrite !Rmult_0_l. }
  assert (LN : forall l, (List.length (numbers (map r_p_value l)) <= List.length l)%nat) by (intros l; rewrite <- (map_length r_p_value l); apply numbers_length).
  split; [split; [now apply (POS _ ra)|apply LN]|]. split; [split; [now apply (POS _ rb)|apply LN]|].
  split.
  - rewrite SH by (auto; now apply (POS _ ra)). rewrite <- (FULL (map r_p_value aa) A1 A2), map_length. reflexivity.
  - rewrite SH by (auto; now apply (POS _ rb)). rewrite <- (FULL (map r_p_value ab) B1 B2), map_length. reflexivity.
Qed.

(** *** Cases *)
Definition halves (v : list R) : list R := [0; 1 / 2; 1; 4].
Definition two_sims : sim := validated_sim [with_p_value (1 / 100) 1; with_p_value (1 / 2) 0] [with_p_value (1 / 100) 3; with_p_value (2 / 100) 2].

Example c92_example : exists axes, plot_deep_dive halves two_sims = Ok axes /\
  map ax_marks axes = [[Bars [1; 0] (halves []) (bar_heights (halves []) [1; 0]) (Some "A/A absolute difference"); Line (Fin 0);
                        Bars [3; 2] (halves []) (bar_heights (halves []) [3; 2]) (Some "A/B absolute difference"); Line (Fin 2)];
                       [Bars [1 / 100; 1 / 2] (halves []) (bar_heights (halves []) [1 / 100; 1 / 2]) None];
                       [Bars [1 / 100; 2 / 100] (halves []) (bar_heights (halves []) [1 / 100; 2 / 100]) None]].
Proof. eexists. split; reflexivity. Qed.

(** the axis of the effects is labelled a density, but it shows numbers: the area of the bars need not be one *)
Definition area (m : mark) : R :=
  match m with
  | Bars _ edges heights _ => fold_right Rplus 0 (map (fun p => INR (snd p) * (snd (fst p) - fst (fst p))) (combine (combine edges (tl edges)) heights))
  | Line _ => 0
  end.
Theorem c92_densities_have_area_one_refuted :
  exists edges_of s axes ax, plot_deep_dive edges_of s = Ok axes /\ hd_error axes = Some ax /\ ax_y ax = "Density" /\
    (forall v, In v [[1; 0]; [3; 2]] -> covers (edges_of v) v) /\
    exists m, In m (ax_marks ax) /\ area m <> 1 /\ shows (map r_abs [with_p_value (1 / 100) 1; with_p_value (1 / 2) 0]) (Some "A/A absolute difference") m.
Proof.
  exists halves, two_sims. destruct (plot_deep_dive halves two_sims) as [axes|] eqn:E; [|discriminate].
  destruct axes as [|ax axes']; [discriminate|]. exists (ax :: axes'), ax. split; [reflexivity|]. split; [reflexivity|].
  destruct (plot_cases halves two_sims _ _ _ eq_refl eq_refl eq_refl ltac:(discriminate)) as [_ P2]. assert (DR := P2 _ E).
  assert (EH := f_equal (fun r => match r with Ok (a :: _) => (ax_y a, ax_marks a) | _ => ("", []) end) E). cbn [tl] in EH.
  assert (EM : ax_marks ax = [Bars [1; 0] (halves []) (bar_heights (halves []) [1; 0]) (Some "A/A absolute difference"); Line (Fin 0);
                        Bars [3; 2] (halves []) (bar_heights (halves []) [3; 2]) (Some "A/B absolute difference"); Line (Fin 2)]).
  { apply (f_equal snd) in EH. symmetry. exact EH. }
  split. { apply (f_equal fst) in EH. symmetry. exact EH. }
  split.
  { intros v Hv. split; [cbn; lia|]. split.
    - intros [|[|[|[|i]]]] a b Ea Eb; cbn in Ea, Eb; try discriminate; injection Ea as <-; injection Eb as <-; lra.
    - cbn in Hv. split; [intros x a Hx Ea; cbn in Ea; injection Ea as <-|intros x Hx; cbn]; decompose [or] Hv; subst; try contradiction; cbn in Hx; decompose [or] Hx; subst; try contradiction; lra. }
  eexists. rewrite EM. split; [now left|]. split.
  - assert (BH : bar_heights (halves []) [1; 0] = [1; 0; 1]%nat).
    { cbn [bar_heights halves filter]. 
      rewrite !(Rle_bool_true 0 1), !(Rle_bool_true 0 0), !(Rle_bool_true (1 / 2) 1), !(Rle_bool_true 1 1), !(Rle_bool_false 1 0), !(Rle_bool_false (1 / 2) 0), !(Rle_bool_true 1 4),
        !(Rlt_bool_false 1 (1 / 2)), !(Rlt_bool_true 0 (1 / 2)), !(Rlt_bool_false 1 1) by lra. reflexivity. }
    rewrite BH. cbn. lra.
  - eexists _, _, _. split; [reflexivity|]. split; [apply numbers_spec|]. apply bar_heights_spec.
Qed.

Print Assumptions c92_says_not_validated_exactly_if_so.
Print Assumptions c92_no_simulations_is_a_key_error.
Print Assumptions c92_what_is_drawn.
Print Assumptions c92_every_number_is_in_one_bar.
Print Assumptions c92_rates_are_shares_of_the_simulations.
Print Assumptions c92_densities_have_area_one_refuted.
