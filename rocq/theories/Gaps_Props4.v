(** Claims that the seeded errors showed to be missing, fourth part. *)
From Coq Require Import ZArith Reals Lra Lia List String Bool Permutation Sorting.Sorted.
From Flocq Require Import Core BinarySingleNaN.
Require Verif.Overtime_Props.
Require Import Verif.Base Verif.Num Verif.NumOrd Verif.F64 Verif.Frame Verif.ListLib Verif.Design_Model Verif.Design_Spec Verif.Design_Proofs Verif.Design_Text_Proofs Verif.Design_Yaml_Proofs Verif.Design_Props
  Verif.Trimmed_Model Verif.Trimmed_Spec Verif.Moments Verif.Trimmed_Proofs Verif.Trimmed_Real Verif.Trimmed_Props
  Verif.Cuped_Model Verif.Cuped_Props Verif.Stats_Model Verif.Stats_Num Verif.Stats_Props Verif.Tests_Proofs
  Verif.Tests_Props Verif.Periods_Model Verif.Periods_Proofs Verif.Periods_Props Verif.Rows_Model Verif.Rows_Spec Verif.Pivot_Spec Verif.Assign_Spec Verif.Assign_Model Verif.Assign_Proofs Verif.Assign_Props
  Verif.Pivot_Model Verif.Pivot_Proofs Verif.Pivot_Props Verif.Analysis_Spec Verif.Analysis_Model Verif.Analysis_Props Verif.Analysis_Props2 Verif.Effect_Props
  Verif.Simulation_Model Verif.Sim_Names_Props Verif.Sim_Boot_Props Verif.Sim_State_Props Verif.Sim_Stats_Props Verif.Sim_Estimate_Props Verif.Sim_Effect_Props
  Verif.Cupedplot_Model Verif.Curves_Model Verif.Overtime_Model.
Import ListNotations.
Open Scope string_scope.
Open Scope list_scope.

(** *** C05: the shown text of a design contains everything, the salt included *)
Theorem c05_shown_text_determines_the_design_and_its_salt :
  forall (R : FloatRepr) d1 d2, repr_design (fr R) d1 = repr_design (fr R) d2 -> d1 = d2.
Proof.
  intros R [p1 a1 b1] [p2 a2 b2]. unfold repr_design. simpl par; simpl n_pre; simpl n_post. 
  intros H. apply append_inj_l in H.
  apply split_char in H as [E1 H]; [|apply dec_no_comma..]. apply dec_inj in E1.
  apply (append_inj_l " runtime_weeks=") in H.
  apply split_char in H as [E2 H]; [|apply dec_no_comma..]. apply dec_inj in E2.
  apply (append_inj_l " primary_metric=") in H.
  apply repr_str_inj in H as [E3 H].
  apply append_inj_l in H.
  apply split_char in H as [E4 H]; [|apply dec_no_comma..]. apply dec_inj in E4.
  apply (append_inj_l " is_crossover=") in H.
  apply split_char in H as [E5 H]; [|apply bool_no_comma..]. apply bool_inj in E5.
  apply (append_inj_l " pre_trim_top_percentile=") in H.
  apply split_char in H as [E6 H]; [|apply fr_nocomma..]. apply fr_inj in E6.
  apply (append_inj_l " pre_trim_bottom_percentile=") in H.
  apply split_char in H as [E7 H]; [|apply fr_nocomma..]. apply fr_inj in E7.
  apply (append_inj_l " post_trim_percentile=") in H.
  apply split_char in H as [E8 H]; [|apply fr_nocomma..]. apply fr_inj in E8.
  apply (append_inj_l " crossover_washout_weeks=") in H.
  apply split_char in H as [E9 H]; [|apply opt_int_no_comma..]. apply opt_int_inj in E9.
  apply (append_inj_l " alpha=") in H.
  apply split_char in H as [E10 H]; [|apply fr_nocomma..]. apply fr_inj in E10.
  apply (append_inj_l " power=") in H.
  apply split_char in H as [E11 H]; [|apply fr_nocomma..]. apply fr_inj in E11.
  apply (append_inj_l " coinflip_salt=") in H.
  assert (Q : forall z x y, ("None" ++ x = repr_str z ++ y)%string -> False).
  { intros z x y X. unfold repr_str in X. cbn [String.append] in X. destruct (andb _ _); discriminate X. }
  assert (S : salt p1 = salt p2 /\ (", n_items_after_pre_trim=" ++ dec a1 ++ ", n_items_after_post_trim=" ++ dec b1 ++ ")" =
                ", n_items_after_pre_trim=" ++ dec a2 ++ ", n_items_after_post_trim=" ++ dec b2 ++ ")")%string).
  { destruct (salt p1) as [s1|], (salt p2) as [s2|]; cbn [repr_opt_str] in H.
    - apply repr_str_inj in H as [-> H]. auto.
    - symmetry in H. now apply Q in H.
    - now apply Q in H.
    - split; [reflexivity|]. now apply (append_inj_l "None") in H. }
  destruct S as [E0 S]. clear H Q. apply append_inj_l in S.
  apply split_char in S as [E12 H]; [|apply dec_no_comma..]. apply dec_inj in E12.
  apply (append_inj_l " n_items_after_post_trim=") in H.
  apply split_char in H as [E13 _]; [|apply dec_no_paren..]. apply dec_inj in E13.
  destruct p1, p2; simpl in *; subst; reflexivity.
Qed.

(** *** C81: infinite values are not left out of the lines *)
Lemma nsum_inf l : In PInf l -> (forall x, In x l -> x <> NInf /\ x <> NaN) -> nsum l = PInf.
Proof.
  assert (F : forall l, (forall x, In x l -> x <> NInf /\ x <> NaN) -> nsum l = PInf \/ exists r, nsum l = Fin r).
  { clear l. induction l as [|x l IH]; intros H; [right; now exists 0%R|]. cbn [nsum].
    destruct (H x (or_introl eq_refl)) as [H1 H2]. destruct IH as [E|(r & E)]; [intros y Hy; apply H; now right| |]; rewrite E; destruct x; try congruence; cbn; eauto. }
  induction l as [|x l IH]; intros I H; [destruct I|]. cbn [nsum].
  destruct (F l) as [E|(r & E)]; [intros y Hy; apply H; now right| |]; rewrite E.
  - destruct (H x (or_introl eq_refl)) as [H1 H2]. destruct x; try congruence; reflexivity.
  - destruct I as [->|I]; [reflexivity|]. rewrite IH in E; [discriminate|exact I|intros y Hy; apply H; now right].
Qed.
Lemma nsum_nan l : In NaN l -> nsum l = NaN.
Proof.
  induction l as [|x l IH]; intros I; [destruct I|]. cbn [nsum]. destruct I as [->|I]; [reflexivity|]. rewrite (IH I). now destruct x.
Qed.
Lemma inf_mean l : In PInf l -> ~ In NInf l -> mean_cell l = PInf.
Proof.
  intros I N. unfold mean_cell, nmean. rewrite nsum_inf.
  - cbn [ndiv]. rewrite Rlt_bool_false by apply pos_INR. reflexivity.
  - apply filter_In. split; auto.
  - intros x Hx. apply filter_In in Hx as [Hx E]. split; intros ->; [contradiction|discriminate E].
Qed.
Lemma inf_std l : In PInf l -> ~ In NInf l -> std_cell l = NaN.
Proof.
  intros I N. unfold std_cell, np_std. fold (mean_cell l). rewrite (inf_mean l I N).
  replace (nmean (map _ _)) with NaN; [reflexivity|]. symmetry. unfold nmean. rewrite nsum_nan; [reflexivity|].
  apply in_map_iff. exists PInf. split; [reflexivity|]. apply filter_In. auto.
Qed.
Lemma group_values_In rows d a v : In v (group_values rows (map (fun r => p_value (o_row r)) rows) d a) <->
  exists r, In r rows /\ p_date (o_row r) = Some d /\ o_arm r = Some a /\ p_value (o_row r) = v.
Proof.
  unfold group_values. rewrite in_map_iff.
  assert (C : forall x, In x (combine rows (map (fun r => p_value (o_row r)) rows)) <-> In (fst x) rows /\ snd x = p_value (o_row (fst x))).
  { intros [r w]. cbn [fst snd]. induction rows as [|r0 rows IH]; cbn [map combine In]; [tauto|]. rewrite IH. split.
    - intros [E|[H1 H2]]; [injection E as -> <-; auto|auto].
    - intros [[->|H1] ->]; auto. }
  assert (G : forall r, in_group d a r = true <-> p_date (o_row r) = Some d /\ o_arm r = Some a).
  { intros r. unfold in_group. destruct (p_date (o_row r)) as [d'|], (o_arm r) as [a'|]; [rewrite andb_true_iff, !Z.eqb_eq|..]; split; try (intros; discriminate); try (intros [? ?]; discriminate).
    - intros [-> ->]; auto.
    - intros [E1 E2]; injection E1 as ->; injection E2 as ->; auto. }
  split.
  - intros ([r w] & E & I). apply filter_In in I as [I K]. apply C in I as [I1 I2]. cbn [fst snd] in *. subst. apply G in K as [K1 K2]. exists r. auto.
  - intros (r & I & D & A & <-). exists (r, p_value (o_row r)). split; [reflexivity|]. apply filter_In. split; [apply C; auto|]. now apply G.
Qed.
Theorem c81_infinite_values_are_drawn :
  forall argsort empty z columns nm literal rows pts start d a,
    plot_metric_over_time argsort empty z columns nm literal rows false = Ok (pts, start) -> a = 1%Z \/ a = 0%Z ->
    (exists r, In r rows /\ p_date (o_row r) = Some d /\ o_arm r = Some a /\ p_value (o_row r) = PInf) ->
    ~ (exists r, In r rows /\ p_date (o_row r) = Some d /\ o_arm r = Some a /\ p_value (o_row r) = NInf) ->
    exists p, In p pts /\ pt_date p = d /\ (if (a =? 1)%Z then pt_treatment p else pt_control p) = PInf /\ pt_lb p = NaN /\ pt_ub p = NaN.
Proof.
  intros argsort empty z columns nm literal rows pts start d a H Ha I N.
  set (col := map (fun r => p_value (o_row r)) rows).
  assert (E : pts = map (point_at z rows col) (pivot_index mean_cell rows col)).
  { unfold plot_metric_over_time, plotted_column in H. apply bind_ok in H as (? & _ & H). apply bind_ok in H as (c & EC & H).
    assert (c = col) as -> by (unfold col; congruence). do 8 (apply bind_ok in H as (? & _ & H)). congruence. }
  assert (V : In PInf (group_values rows col d a)) by now apply group_values_In.
  assert (V' : ~ In NInf (group_values rows col d a)) by (intros X; apply N; now apply group_values_In).
  assert (M := inf_mean _ V V'). assert (S := inf_std _ V V').
  destruct I as (r & Ir & Dr & Ar & Vr).
  assert (K : forall {A} (l : list (option A)) x, In x (known l) <-> In (Some x) l).
  { intros A l x. unfold known. rewrite in_flat_map. split; [intros ([y|] & I & J); [destruct J as [->|[]]; exact I|destruct J]|intros I; exists (Some x); split; [exact I|now left]]. }
  exists (point_at z rows col d). split.
  - rewrite E. apply in_map, filter_In. split.
    + unfold dates_of. apply zsort_uniq_In, K, in_map_iff. exists r. auto.
    + apply existsb_exists. exists a. split; [unfold arms_of; apply zsort_uniq_In, K, in_map_iff; exists r; auto|]. unfold kept, pivot_cell. now rewrite M.
  - split; [reflexivity|]. unfold point_at, pivot_cell. cbn [pt_treatment pt_control pt_lb pt_ub]. split; [destruct Ha as [-> | ->]; exact M|].
    assert (SN : nsqrt (nadd (nmul (std_cell (group_values rows col d 1)) (std_cell (group_values rows col d 1)))
      (nmul (std_cell (group_values rows col d 0)) (std_cell (group_values rows col d 0)))) = NaN).
    { destruct Ha as [-> | ->]; rewrite S; cbn [nmul nadd]; [reflexivity|]. now destruct (nmul _ _). }
    rewrite SN. replace (nmul z NaN) with NaN by (now destruct z).
    assert (X : forall x, nsub x NaN = NaN /\ nadd x NaN = NaN) by (intros []; split; reflexivity). split; apply X.
Qed.

(** two days of two items; on the first the treated item has an infinite value *)
Definition infinite_rows : list orow :=
  [mkOR (mkPR "a" (Some 0%Z) "test" PInf) (Some 1%Z); mkOR (mkPR "b" (Some 0%Z) "test" (Fin 1)) (Some 0%Z);
   mkOR (mkPR "a" (Some 1%Z) "test" (Fin 1)) (Some 1%Z); mkOR (mkPR "b" (Some 1%Z) "test" (Fin 1)) (Some 0%Z)].
Example c81_infinite_value_drawn : exists pts p,
  plot_metric_over_time argsort_ref [] (Fin 2) ["clicks"; "item_id"; "time_period"; "arm"; "date"] (mkNames "clicks" "item_id" "time_period" "arm" "date") []
    infinite_rows false = Ok (pts, plot_start_date []) /\ In p pts /\ pt_date p = 0%Z /\ pt_treatment p = PInf.
Proof.
  set (col := map (fun r => p_value (o_row r)) infinite_rows).
  assert (M : forall a, a = 1%Z \/ a = 0%Z -> pivot_has_arm mean_cell infinite_rows col a = true /\ pivot_has_arm std_cell infinite_rows col a = true).
  { intros a Ha. assert (G : group_values infinite_rows col 1 a = map Fin [1%R]) by (destruct Ha as [-> | ->]; reflexivity).
    assert (D : In 1%Z (dates_of infinite_rows)) by (vm_compute; tauto).
    split; apply existsb_exists; exists 1%Z; (split; [exact D|]); unfold kept, pivot_cell; rewrite G;
      [rewrite Overtime_Props.mean_cell_fin by discriminate|rewrite Overtime_Props.std_cell_fin by discriminate]; reflexivity. }
  assert (H : plot_metric_over_time argsort_ref [] (Fin 2) ["clicks"; "item_id"; "time_period"; "arm"; "date"] (mkNames "clicks" "item_id" "time_period" "arm" "date") []
    infinite_rows false = Ok (map (point_at (Fin 2) infinite_rows col) (pivot_index mean_cell infinite_rows col), plot_start_date [])).
  { unfold plot_metric_over_time, plotted_column, need, has_name. cbn [nm_date nm_metric nm_arm existsb String.eqb Ascii.eqb Bool.eqb orb negb raise_if bind]. fold col.
    rewrite (proj1 (M 1%Z (or_introl eq_refl))), (proj2 (M 1%Z (or_introl eq_refl))), (proj1 (M 0%Z (or_intror eq_refl))), (proj2 (M 0%Z (or_intror eq_refl))). reflexivity. }
  destruct (c81_infinite_values_are_drawn _ _ _ _ _ _ _ _ _ 0%Z 1%Z H (or_introl eq_refl)) as (p & I & D & E & _).
  - eexists. split; [left; reflexivity|]. repeat split.
  - intros (r & I & _ & _ & E). cbn in I. repeat (destruct I as [<-|I]; [discriminate E|]). destruct I.
  - do 2 eexists. split; [exact H|]. split; [exact I|]. auto.
Qed.

(** *** C14: the rows of the pivoted data come by item, and for one item by arm *)
Definition key_before (a b : string * list Z) : Prop :=
  String.compare (fst a) (fst b) = Lt \/
  (fst a = fst b /\ exists x y, snd a = [x] /\ snd b = [y] /\ (x < y)%Z).
Lemma frame_row_key f metrics item week treat i r : In r (frame_row f metrics item week treat i) ->
  match treat with None => snd (p_key r) = [] | Some _ => exists a, snd (p_key r) = [a] end.
Proof.
  unfold frame_row. destruct treat as [t|].
  - destruct (z_of_cell _) as [a|]; [|intros []]. destruct (str_of_cell _); [|intros []]. intros [<-|[]]. now exists a.
  - destruct (str_of_cell _); [|intros []]. intros [<-|[]]. reflexivity.
Qed.
Theorem c14_rows_come_by_item_and_arm :
  forall f p d start metrics item week treat period f' t,
    mk_design p = Ok d -> calm (frame_rows f metrics item week treat) -> metrics <> [] ->
    pivot_time_assignment f p start metrics item week treat period = (f', Ok t) ->
    StronglySorted key_before (map fst (t_rows t)).
Proof.
  intros f p d start metrics item week treat period f' t HD HC HM H. unfold pivot_time_assignment in H.
  destruct (has_col period f); [discriminate|]. destruct (existsb _ _); [discriminate|].
  destruct (label_fun p start) as [lab|] eqn:EL; [|discriminate].
  destruct (pivot_rows akeqb akleb p start metrics (frame_rows f metrics item week treat)) as [t0|] eqn:EP; [|discriminate].
  assert (t0 = t) by congruence. subst t0.
  destruct (c14_values_are_weekly_averages _ akeqb akleb p d start lab metrics _ t akey_ord HD EL HC HM EP) as (KI & S & _ & _).
  assert (KS : forall k, In k (map fst (t_rows t)) -> match treat with None => snd k = [] | Some _ => exists a, snd k = [a] end).
  { intros k Hk. apply KI in Hk as (r & s & I & <- & _). unfold frame_rows in I. apply in_flat_map in I as (i & _ & I). now apply frame_row_key in I. }
  clear KI. induction S as [|k l S IH F]; [constructor|]. constructor; [apply IH; intros x Hx; apply KS; now right|].
  apply Forall_forall. intros k' Hk'. rewrite Forall_forall in F. destruct (F k' Hk') as [L NE].
  assert (K1 := KS k (or_introl eq_refl)). assert (K2 := KS k' (or_intror Hk')).
  destruct k as [i a], k' as [i' a']. unfold akleb, lexb in L. cbn [fst snd] in *. unfold key_before. cbn [fst snd].
  destruct (String.eqb_spec i i') as [->|D].
  - right. split; [reflexivity|]. destruct treat.
    + destruct K1 as (x & ->), K2 as (y & ->). exists x, y. split; [reflexivity|]. split; [reflexivity|]. cbn in L.
      destruct (Z.eqb_spec x y) as [->|]; [congruence|]. apply Z.leb_le in L. lia.
    + congruence.
  - left. unfold sleb, String.leb in L. destruct (String.compare i i') eqn:E; [apply String.compare_eq_iff in E; congruence|reflexivity|discriminate].
Qed.

(** *** C85: the drawn arms are the compared arms *)
Theorem c85_the_drawn_arms_are_compared :
  forall T argsort G (shuffle_of sample_of : G -> nat -> list nat * G) arms_of choice_of s mde f g f' g' ra rb,
    samples_positions sample_of -> draws_arms arms_of ->
    simulate_once T argsort shuffle_of sample_of arms_of choice_of s mde (f, g) = ((f', g'), Ok (ra, rb)) ->
    let p := par (sm_design s) in
    let arm (key : ikey * Z) := Some (snd key) in
    exists g2 aa ab,
      map (fun r => snd (fst r)) (t_rows aa) = fst (arms_of g2 (List.length (t_rows aa))) /\
      g' = snd (arms_of g2 (List.length (t_rows aa))) /\
      analyze_single_metric T argsort arm aa true p (metric p) None None = Ok ra /\
      apply_synthetic_treatment_effect arm aa true p (metric p) mde = Ok ab /\
      analyze_single_metric T argsort arm ab true p (metric p) None None = Ok rb.
Proof.
  intros T argsort G shuffle_of sample_of arms_of choice_of s mde f g f' g' ra rb HSP HAR H p arm.
  unfold simulate_once in H. fold p in H. unfold sbind at 1 in H. unfold sret at 1 in H.
  destruct (valid_start_week_ids s) as [starts|]; [|discriminate]. unfold sbind at 1 in H.
  destruct starts as [|w starts]; [discriminate|]. unfold on_rng at 1 in H. cbn [fst snd] in H.
  destruct (choice_of g (w :: starts)) as [start g1] eqn:EC. unfold sbind at 1 in H. cbn [fst snd] in H.
  destruct (get_pivoted_and_trimmed shuffle_of sample_of s start true (f, g1)) as [[f2 g2] [t|]] eqn:EG; [|discriminate].
  unfold sbind at 1 in H. unfold on_rng in H. cbn [fst snd] in H.
  destruct (apply_random_treatment_assignment arms_of t g2 (sm_item s) (sm_treatment s)) as [g3 [a|]] eqn:EA; [|discriminate].
  unfold sret in H.
  destruct (as_table (metric p) a) as [aa|] eqn:ET; [|discriminate]. cbn [bind] in H.
  destruct (analyze_single_metric T argsort sim_arm aa true p (metric p) None None) as [ra'|] eqn:HA; [|discriminate]. cbn [bind] in H.
  destruct (bind _ _) as [z|] eqn:EZ; [|discriminate]. apply bind_ok in EZ as (ab & EB & EZ). apply bind_ok in EZ as (rb' & ER & EZ).
  assert (ra' = ra /\ rb' = rb /\ g' = g3) as (-> & -> & ->) by (repeat split; congruence).
  exists g2, aa, ab.
  destruct (c68_simulated_rows_have_distinct_ids G shuffle_of sample_of s start f g1 f2 g2 t HSP EG) as (NDI & _).
  assert (DI : dedup ikeqb (map fst (t_rows t)) = map fst (t_rows t)) by (apply dedup_id; auto; apply ikeqb_eq).
  assert (RA : t_rows aa = a_rows a).
  { unfold as_table in ET. apply bind_ok in ET as (cols & _ & ET). injection ET as <-. reflexivity. }
  assert (X : g3 = snd (arms_of g2 (List.length (t_rows t))) /\ map (fun r => snd (fst r)) (a_rows a) = fst (arms_of g2 (List.length (t_rows t))) /\
     List.length (a_rows a) = List.length (t_rows t)).
  { unfold apply_random_treatment_assignment in EA. destruct (orb _ _); [discriminate|]. destruct (negb _); [discriminate|].
    rewrite DI, map_length in EA. destruct (HAR g2 (List.length (t_rows t))) as [LA _].
    destruct (arms_of g2 (List.length (t_rows t))) as [arms g5] eqn:EAR. destruct (existsb (String.eqb (sm_item s)) _); [discriminate|]. destruct (existsb (String.eqb (sm_treatment s)) _); [discriminate|].
    split; [cbn [snd]; congruence|].
    assert (AC := f_equal (fun r => match snd r with Ok x => a_rows x | Err _ => [] end) EA). cbn [snd a_rows] in AC. rewrite <- AC, map_map, map_length. cbn [fst snd].
    cbn [fst] in LA. assert (Q := first_position_id (map fst (t_rows t)) arms NDI ltac:(now rewrite map_length)). rewrite map_map in Q. split; [exact Q|reflexivity]. }
  destruct X as (X1 & X2 & X3). rewrite RA, X3. split; [exact X2|]. split; [exact X1|]. split; [exact HA|]. split; [exact EB|exact ER].
Qed.

Print Assumptions c05_shown_text_determines_the_design_and_its_salt.
Print Assumptions c81_infinite_values_are_drawn.
Print Assumptions c14_rows_come_by_item_and_arm.
Print Assumptions c85_the_drawn_arms_are_compared.
