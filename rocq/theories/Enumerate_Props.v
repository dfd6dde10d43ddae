(** Properties C08 - C11. *)
From Coq Require Import ZArith Reals List String Bool Lia.
From Flocq Require Import Core BinarySingleNaN.
Require Import Verif.Base Verif.F64 Verif.Design_Model Verif.Design_Spec Verif.Design_Proofs
  Verif.Design_Yaml_Proofs Verif.Enumerate_Model Verif.Enumerate_Spec.
Import ListNotations.
Open Scope string_scope.
Open Scope Z_scope.

Definition of_cand (c : cand) : combo := (c_run c, c_pre c, c_top c, c_bot c, c_post c).

Lemma list_prod_flat_map {A B} (l : list A) (l' : list B) :
  list_prod l l' = flat_map (fun x => map (fun y => (x, y)) l') l.
Proof. induction l; simpl; congruence. Qed.

Lemma flat_map_flat_map {A B C} (f : A -> list B) (g : B -> list C) l :
  flat_map g (flat_map f l) = flat_map (fun x => flat_map g (f x)) l.
Proof. induction l; simpl; auto. rewrite flat_map_app. congruence. Qed.

Lemma flat_map_map {A B C} (f : A -> B) (g : B -> list C) l :
  flat_map g (map f l) = flat_map (fun x => g (f x)) l.
Proof. induction l; simpl; congruence. Qed.

Lemma map_flat_map {A B C} (f : A -> list B) (g : B -> C) l :
  map g (flat_map f l) = flat_map (fun x => map g (f x)) l.
Proof. induction l; simpl; auto. rewrite map_app. congruence. Qed.

Lemma flat_map_list_prod {A B C} (g : A * B -> list C) l l' :
  flat_map g (list_prod l l') = flat_map (fun x => flat_map (fun y => g (x, y)) l') l.
Proof.
  rewrite list_prod_flat_map, flat_map_flat_map. apply flat_map_ext. intros a.
  apply flat_map_map.
Qed.

Lemma product5_candidates rs ps ts bs qs :
  product5 rs ps ts bs qs = map of_cand (candidates rs ps ts bs qs).
Proof.
  unfold product5, candidates. rewrite list_prod_flat_map, 3 flat_map_list_prod.
  rewrite map_flat_map. apply flat_map_ext; intros r. rewrite map_flat_map.
  apply flat_map_ext; intros p. rewrite map_flat_map. apply flat_map_ext; intros t.
  rewrite map_flat_map. apply flat_map_ext; intros b. rewrite map_map. reflexivity.
Qed.

Lemma pretrim_possibleb_iff c : pretrim_possibleb c = true <-> pretrim_possible c.
Proof.
  unfold pretrim_possibleb, pretrim_possible. rewrite orb_true_iff, !negb_true_iff, Z.eqb_neq.
  destruct (fltb f0 _); intuition congruence.
Qed.

Lemma skip_eq c :
  andb (fgtb (fadd (c_top c) (c_bot c)) f0) (c_pre c =? 0) = negb (pretrim_possibleb c).
Proof.
  unfold pretrim_possibleb. change (fgtb (fadd (c_top c) (c_bot c)) f0) with (fltb f0 (fadd (c_top c) (c_bot c))).
  destruct (fltb f0 _), (c_pre c =? 0); reflexivity.
Qed.

Lemma can_crossover_eq x w r :
  can_crossover x (Some w) r = Ok (x && Z.even r && (2 * w <? r))%bool.
Proof.
  unfold can_crossover. f_equal. rewrite Z.gtb_ltb.
  assert (E : (r mod 2 =? 0) = Z.even r).
  { rewrite Zmod_even. destruct (Z.even r); reflexivity. }
  rewrite E. destruct x, (2 * w <? r), (Z.even r); reflexivity.
Qed.

(** one step with a washout given: the designs of the wanted parameters are appended *)
Lemma enum_step_eq n x t m w acc c :
  enum_step n x t m (Some w) acc (of_cand c) =
  bind (mapM mk_design (wanted_for n m x t w c)) (fun ds => Ok (acc ++ ds)%list).
Proof.
  unfold enum_step, of_cand. rewrite skip_eq. unfold wanted_for.
  destruct (pretrim_possibleb c); cbn [negb].
  2:{ simpl. now rewrite app_nil_r. }
  rewrite can_crossover_eq. cbn [traditional_params crossover_params].
  change default_washout with (@None Z). change default_alpha with (flit 5 100).
  change default_power with (flit 8 10). change default_salt with (@None string).
  destruct t; destruct (x && Z.even (c_run c) && (2 * w <? c_run c))%bool; cbn [app mapM];
    repeat match goal with |- context [match mk_design ?p with _ => _ end] =>
             destruct (mk_design p) end; cbn [bind app];
    repeat match goal with |- context [bind (mk_design ?p) _] =>
             destruct (mk_design p) end; cbn [bind app];
    rewrite ?app_nil_r, <- ?app_assoc; reflexivity.
Qed.

Lemma mapM_app {A B} (f : A -> result B) l1 l2 :
  mapM f (l1 ++ l2) = bind (mapM f l1) (fun a => bind (mapM f l2) (fun b => Ok (a ++ b)%list)).
Proof.
  induction l1; simpl.
  - destruct (mapM f l2); reflexivity.
  - destruct (f a); simpl; auto. rewrite IHl1. destruct (mapM f l1); simpl; auto.
    destruct (mapM f l2); reflexivity.
Qed.

Lemma enum_loop_eq n x t m w cs acc :
  enum_loop n x t m (Some w) acc (map of_cand cs) =
  bind (mapM mk_design (flat_map (wanted_for n m x t w) cs)) (fun ds => Ok (acc ++ ds)%list).
Proof.
  revert acc. induction cs as [|c cs IH]; intros acc; cbn [map enum_loop flat_map].
  - simpl. now rewrite app_nil_r.
  - rewrite enum_step_eq, mapM_app.
    destruct (mapM mk_design (wanted_for n m x t w c)); cbn [bind]; auto.
    rewrite IH. destruct (mapM mk_design (flat_map _ cs)); cbn [bind]; auto.
    now rewrite app_assoc.
Qed.

Lemma generate_eq n x t rs ps ts bs qs m w :
  generate_all_valid_designs n x t rs ps ts bs qs m (Some w) =
  mapM mk_design (wanted n m x t w rs ps ts bs qs).
Proof.
  unfold generate_all_valid_designs. rewrite andb_false_r. cbn [raise_if bind].
  rewrite product5_candidates, enum_loop_eq. unfold wanted.
  destruct (mapM mk_design _); reflexivity.
Qed.

(** without a washout the loop succeeds only if every combination is skipped *)
Lemma enum_loop_none n x t m cs acc ds :
  enum_loop n x t m None acc (map of_cand cs) = Ok ds <->
  (forall c, In c cs -> ~ pretrim_possible c) /\ ds = acc.
Proof.
  revert acc. induction cs as [|c cs IH]; intros acc; cbn [map enum_loop].
  - split; [intros H; inversion H; split; auto; intros c [] | intros [_ ->]; auto].
  - unfold enum_step at 1. unfold of_cand at 1. rewrite skip_eq.
    destruct (pretrim_possibleb c) eqn:E; cbn [negb].
    + split.
      * destruct t; [destruct (mk_design _)|]; cbn [bind can_crossover]; discriminate.
      * intros [H _]. exfalso. apply (H c); [now left|]. now apply pretrim_possibleb_iff.
    + cbn [bind]. rewrite IH.
      assert (N : ~ pretrim_possible c) by (rewrite <- pretrim_possibleb_iff; congruence).
      split; intros [H ->]; split; auto; intros c' Hc'.
      * destruct Hc' as [<-|Hc']; auto.
      * apply H. now right.
Qed.

(** C08. *)
Theorem c08_returns_wanted_designs_in_order n x t rs ps ts bs qs m w ds :
  generate_all_valid_designs n x t rs ps ts bs qs m (Some w) = Ok ds ->
  map par ds = wanted n m x t w rs ps ts bs qs /\
  Forall (fun d => design_ok (par d) /\ mk_design (par d) = Ok d) ds.
Proof.
  rewrite generate_eq, mapM_ok. induction 1 as [|p d lp ld H _ IH]; simpl.
  - auto.
  - destruct IH as [IH1 IH2]. pose proof (mk_design_par _ _ H) as E. split.
    + now rewrite E, IH1.
    + constructor; auto. rewrite E. split; auto. now apply mk_design_iff in H.
Qed.

(** membership form: which designs occur *)
Theorem c08_design_returned_iff n x t rs ps ts bs qs m w ds d :
  generate_all_valid_designs n x t rs ps ts bs qs m (Some w) = Ok ds ->
  (In d ds <->
   mk_design (par d) = Ok d /\
   In (runtime (par d)) rs /\ In (pretest (par d)) ps /\ In (top (par d)) ts /\
   In (bottom (par d)) bs /\ In (post (par d)) qs /\
   n_before (par d) = n /\ metric (par d) = m /\
   alpha (par d) = flit 5 100 /\ power (par d) = flit 8 10 /\ salt (par d) = None /\
   (pretest (par d) <> 0 \/ fltb f0 (fadd (top (par d)) (bottom (par d))) <> true) /\
   ((crossover (par d) = false /\ t = true /\ washout (par d) = None) \/
    (crossover (par d) = true /\ x = true /\ washout (par d) = Some w /\
     Z.Even (runtime (par d)) /\ 2 * w < runtime (par d)))).
Proof.
  intros H. destruct (c08_returns_wanted_designs_in_order _ _ _ _ _ _ _ _ _ _ _ H) as [E F].
  assert (Hin : In d ds <-> (mk_design (par d) = Ok d /\ In (par d) (map par ds))).
  { rewrite Forall_forall in F. split.
    - intros Hd. split; [now apply F | now apply in_map].
    - intros [Hm Hp]. apply in_map_iff in Hp as (d' & Hp & Hd').
      destruct (F _ Hd') as [_ F']. rewrite Hp, Hm in F'. inversion F'; subst; auto. }
  rewrite Hin, E. unfold wanted. rewrite in_flat_map.
  assert (Hc : forall c, In c (candidates rs ps ts bs qs) <->
     In (c_run c) rs /\ In (c_pre c) ps /\ In (c_top c) ts /\ In (c_bot c) bs /\ In (c_post c) qs).
  { intros [r p tt b q]. unfold candidates. cbn [c_run c_pre c_top c_bot c_post].
    rewrite in_flat_map. split.
    - intros (r' & Hr & Hi). apply in_flat_map in Hi as (p' & Hp & Hi).
      apply in_flat_map in Hi as (t' & Ht & Hi). apply in_flat_map in Hi as (b' & Hb & Hi).
      apply in_map_iff in Hi as (q' & Eq & Hq). inversion Eq; subst. tauto.
    - intros (Hr & Hp & Ht & Hb & Hq). exists r. split; auto.
      apply in_flat_map. exists p. split; auto. apply in_flat_map. exists tt. split; auto.
      apply in_flat_map. exists b. split; auto. apply in_map_iff. exists q. auto. }
  split.
  - intros (Hm & c & Hi & Hw). apply Hc in Hi as (H1 & H2 & H3 & H4 & H5).
    unfold wanted_for in Hw. destruct (pretrim_possibleb c) eqn:Ep; [|destruct Hw].
    apply pretrim_possibleb_iff in Ep. apply in_app_or in Hw.
    assert (G : exists xx ww, par d = mkParams n (c_run c) m (c_pre c) xx (c_top c) (c_bot c)
        (c_post c) ww (flit 5 100) (flit 8 10) None /\
        ((xx = false /\ t = true /\ ww = None) \/
         (xx = true /\ x = true /\ ww = Some w /\ Z.Even (c_run c) /\ 2 * w < c_run c))).
    { destruct Hw as [Hw|Hw].
      - destruct t; [|destruct Hw]. destruct Hw as [<-|[]]. do 2 eexists; split; eauto.
      - destruct (x && Z.even (c_run c) && (2 * w <? c_run c))%bool eqn:Ex; [|destruct Hw].
        apply andb_true_iff in Ex as [Ex E3]. apply andb_true_iff in Ex as [E1 E2].
        apply Z.ltb_lt in E3. apply Z.even_spec in E2.
        destruct Hw as [<-|[]]. do 2 eexists; split; eauto. right. tauto. }
    destruct G as (xx & ww & EP & G). split; auto. rewrite EP.
    cbn [runtime pretest top bottom post n_before metric alpha power salt crossover washout].
    unfold pretrim_possible in Ep. repeat (split; [auto; fail|]). exact G.
  - intros (Hm & H1 & H2 & H3 & H4 & H5 & Hn & Hmet & Ha & Hpw & Hs & Hp & Hx).
    split; auto. exists (mkCand (runtime (par d)) (pretest (par d)) (top (par d)) (bottom (par d)) (post (par d))).
    split; [apply Hc; cbn; tauto|]. unfold wanted_for.
    assert (Ep : pretrim_possibleb (mkCand (runtime (par d)) (pretest (par d)) (top (par d)) (bottom (par d)) (post (par d))) = true)
      by (apply pretrim_possibleb_iff; exact Hp).
    rewrite Ep. cbn [c_run c_pre c_top c_bot c_post]. apply in_or_app.
    destruct (par d) as [a1 a2 a3 a4 a5 a6 a7 a8 a9 a10 a11 a12]. cbn in *. subst.
    destruct Hx as [(-> & -> & ->)|(-> & -> & -> & Hev & Hlt)].
    + left. now left.
    + right. apply Z.even_spec in Hev. apply Z.ltb_lt in Hlt. rewrite Hev, Hlt. now left.
Qed.

(** C09. *)
Theorem c09_washout_value_irrelevant n t rs ps ts bs qs m w w' :
  generate_all_valid_designs n false t rs ps ts bs qs m (Some w) =
  generate_all_valid_designs n false t rs ps ts bs qs m (Some w').
Proof. rewrite !generate_eq. reflexivity. Qed.

(** with the documented default the call only returns when there is nothing to enumerate *)
Theorem c09_omitted_washout_returns_only_nothing n x t rs ps ts bs qs m ds :
  generate_all_valid_designs n x t rs ps ts bs qs m None = Ok ds <->
  x = false /\ ds = [] /\ forall c, In c (candidates rs ps ts bs qs) -> ~ pretrim_possible c.
Proof.
  unfold generate_all_valid_designs. rewrite andb_true_r, product5_candidates.
  destruct x; cbn [raise_if bind].
  - split; [discriminate|intros [? _]; discriminate].
  - rewrite enum_loop_none. intuition.
Qed.

Definition type_error {A} (r : result A) : Prop := exists s, r = Err (TypeError s).

(** only crossover-free inputs whose traditional designs are all valid: with a washout the
    call succeeds, without it raises TypeError *)
Theorem c09_omitted_washout_raises n t rs ps ts bs qs m w ds :
  generate_all_valid_designs n false t rs ps ts bs qs m (Some w) = Ok ds ->
  (exists c, In c (candidates rs ps ts bs qs) /\ pretrim_possible c) ->
  type_error (generate_all_valid_designs n false t rs ps ts bs qs m None).
Proof.
  rewrite generate_eq. intros H He.
  unfold generate_all_valid_designs. cbn [andb raise_if bind]. rewrite product5_candidates.
  unfold wanted in H. revert ds H He. generalize (@nil design).
  induction (candidates rs ps ts bs qs) as [|c cs IH]; intros acc ds H (c0 & Hc0 & Hp); [destruct Hc0|].
  cbn [flat_map] in H. rewrite mapM_app in H. apply bind_ok in H as (d1 & H1 & H).
  apply bind_ok in H as (d2 & H2 & _). cbn [map enum_loop]. unfold enum_step at 1, of_cand at 1.
  rewrite skip_eq. unfold wanted_for in H1. destruct (pretrim_possibleb c) eqn:E; cbn [negb].
  - destruct t; cbn [app mapM andb] in H1.
    + change (traditional_params n m (c_run c, c_pre c, c_top c, c_bot c, c_post c)) with
        (mkParams n (c_run c) m (c_pre c) false (c_top c) (c_bot c) (c_post c) None
          (flit 5 100) (flit 8 10) None).
      destruct (mk_design _); [|discriminate]. eexists. reflexivity.
    + eexists. reflexivity.
  - cbn [bind]. eapply IH; eauto. exists c0. split; auto. destruct Hc0 as [<-|]; auto.
    apply pretrim_possibleb_iff in Hp. congruence.
Qed.

Theorem c09_crossover_free_enumeration_refuted :
  exists n rs ps ts bs qs m,
    is_ok (generate_all_valid_designs n false true rs ps ts bs qs m (Some 0)) /\
    type_error (generate_all_valid_designs n false true rs ps ts bs qs m None).
Proof.
  exists 100, [4], [2], [f0], [f0], [f0], "clicks".
  assert (H : is_ok (generate_all_valid_designs 100 false true [4] [2] [f0] [f0] [f0] "clicks" (Some 0))).
  { rewrite generate_eq. cbn [wanted candidates flat_map map app].
    set (p := mkParams 100 4 "clicks" 2 false f0 f0 f0 None (flit 5 100) (flit 8 10) None).
    assert (E : wanted_for 100 "clicks" false true 0 (mkCand 4 2 f0 f0 f0) = [p]) by reflexivity.
    rewrite E. cbn [app mapM].
    assert (M : mk_design p = Ok (mkDesignRec p 100 100)) by (apply mk_design_check; vm_compute; reflexivity).
    rewrite M. eexists. reflexivity. }
  split; auto. destruct H as (ds & H).
  eapply c09_omitted_washout_raises; eauto.
  exists (mkCand 4 2 f0 f0 f0). split; [now left|]. left. discriminate.
Qed.

(** C10. *)
Theorem c10_returns_iff_every_constructed_design_is_valid n x t rs ps ts bs qs m w :
  is_ok (generate_all_valid_designs n x t rs ps ts bs qs m (Some w)) <->
  Forall design_ok (wanted n m x t w rs ps ts bs qs).
Proof.
  rewrite generate_eq. rewrite Forall_forall. split.
  - intros (ds & H) p Hp. apply mapM_ok in H.
    induction H as [|a b la lb H _ IH]; destruct Hp; subst; auto.
    now apply mk_design_iff in H.
  - intros H. rewrite (mapM_total mk_design (fun p => mkDesignRec p (spec_n_pre p) (spec_n_post p))).
    + eexists; reflexivity.
    + intros p Hp. apply mk_design_iff. auto.
Qed.

(** two candidates, one gives a valid design; still nothing is returned *)
Theorem c10_invalid_candidates_are_filtered_refuted :
  exists n rs ps ts bs qs m w p,
    In p (wanted n m false true w rs ps ts bs qs) /\ design_ok p /\
    ~ is_ok (generate_all_valid_designs n false true rs ps ts bs qs m (Some w)).
Proof.
  set (p := mkParams 60 4 "clicks" 2 false f0 f0 f0 None (flit 5 100) (flit 8 10) None).
  set (p' := mkParams 60 4 "clicks" 2 false f0 f0 (flit 4 10) None (flit 5 100) (flit 8 10) None).
  exists 60, [4], [2], [f0], [f0], [f0; flit 4 10], "clicks", 0, p.
  assert (E : wanted 60 "clicks" false true 0 [4] [2] [f0] [f0] [f0; flit 4 10] = [p; p']) by reflexivity.
  rewrite E. split; [now left|].
  assert (M : mk_design p = Ok (mkDesignRec p 60 60)) by (apply mk_design_check; vm_compute; reflexivity).
  split; [now apply mk_design_iff in M|].
  rewrite generate_eq, E. cbn [mapM]. rewrite M.
  assert (M' : match mk_design p' with Ok _ => false | Err _ => true end = true) by (vm_compute; reflexivity).
  destruct (mk_design p'); [discriminate|]. intros (ds & H). discriminate.
Qed.

(** non-trivial case for C08 / C10: two runtimes, one usable for crossover *)
Example c08_example :
  exists ds, generate_all_valid_designs 100 true true [3; 4] [0; 2] [f0; flit 1 10] [f0] [f0] "clicks" (Some 1) = Ok ds
    /\ List.length ds = 9%nat.
Proof.
  rewrite generate_eq.
  assert (B : match mapM mk_design (wanted 100 "clicks" true true 1 [3; 4] [0; 2] [f0; flit 1 10] [f0] [f0])
              with Ok ds => Nat.eqb (List.length ds) 9 | Err _ => false end = true) by (vm_compute; reflexivity).
  destruct (mapM mk_design _) as [ds|]; [|discriminate].
  exists ds. split; auto. now apply Nat.eqb_eq.
Qed.

(** C11. *)
Lemma fold_max_spec l x : In (fold_left Z.max l x) (x :: l) /\ forall y, In y (x :: l) -> y <= fold_left Z.max l x.
Proof.
  revert x. induction l as [|a l IH]; intros x; cbn [fold_left].
  - split; [now left|]. intros y [<-|[]]; lia.
  - destruct (IH (Z.max x a)) as [H1 H2]. split.
    + destruct H1 as [H1|H1]; [|now right; right]. rewrite <- H1.
      destruct (Z.max_spec x a) as [[_ ->]|[_ ->]]; [right; now left|now left].
    + intros y [<-|[<-|Hy]]; [| |apply H2; now right];
        (apply Z.le_trans with (Z.max x a); [lia | apply H2; now left]).
Qed.
Lemma fold_min_spec l x : In (fold_left Z.min l x) (x :: l) /\ forall y, In y (x :: l) -> fold_left Z.min l x <= y.
Proof.
  revert x. induction l as [|a l IH]; intros x; cbn [fold_left].
  - split; [now left|]. intros y [<-|[]]; lia.
  - destruct (IH (Z.min x a)) as [H1 H2]. split.
    + destruct H1 as [H1|H1]; [|now right; right]. rewrite <- H1.
      destruct (Z.min_spec x a) as [[_ ->]|[_ ->]]; [now left|right; now left].
    + intros y [<-|[<-|Hy]]; [| |apply H2; now right];
        (apply Z.le_trans with (Z.min x a); [apply H2; now left | lia]).
Qed.

Lemma py_max_ok l z : py_max l = Ok z <-> In z l /\ forall y, In y l -> y <= z.
Proof.
  destruct l as [|x l]; simpl.
  - split; [discriminate|tauto].
  - destruct (fold_max_spec l x) as [H1 H2]. split.
    + intros H; inversion H; subst. split; [apply H1|apply H2].
    + intros [H3 H4]. f_equal. apply Z.le_antisymm; [now apply H4|now apply H2].
Qed.
Lemma py_min_ok l z : py_min l = Ok z <-> In z l /\ forall y, In y l -> z <= y.
Proof.
  destruct l as [|x l]; simpl.
  - split; [discriminate|tauto].
  - destruct (fold_min_spec l x) as [H1 H2]. split.
    + intros H; inversion H; subst. split; [apply H1|apply H2].
    + intros [H3 H4]. f_equal. apply Z.le_antisymm; [now apply H2|now apply H4].
Qed.
Lemma py_max_total l : l <> [] -> exists z, py_max l = Ok z.
Proof. destruct l; simpl; [congruence|eauto]. Qed.
Lemma py_min_total l : l <> [] -> exists z, py_min l = Ok z.
Proof. destruct l; simpl; [congruence|eauto]. Qed.

Theorem c11_minimum_start_week_is_least_with_room rs ps hist s :
  calculate_minimum_start_week_id rs ps hist = Ok s <->
  rs <> [] /\ ps <> [] /\ hist <> [] /\
  room_for rs ps hist s /\ (forall s', room_for rs ps hist s' -> s <= s').
Proof.
  unfold calculate_minimum_start_week_id. split.
  - intros H. apply bind_ok in H as (mr & H1 & H). apply bind_ok in H as (mp & H2 & H).
    apply bind_ok in H as (fi & H3 & H). apply bind_ok in H as (la & H4 & H).
    apply bind_ok in H as (u & H5 & H). apply raise_if_ok in H5. apply Z.ltb_ge in H5.
    inversion H; subst; clear H.
    apply py_max_ok in H1 as [I1 M1], H2 as [I2 M2], H4 as [I4 M4]. apply py_min_ok in H3 as [I3 M3].
    split; [|split; [|split; [|split]]].
    1-3: intros ->; contradiction.
    + intros r p Hr Hp. apply M1 in Hr. apply M2 in Hp. split.
      * exists fi. split; auto. lia.
      * exists la. split; auto. lia.
    + intros s' Hs. destruct (Hs mr mp I1 I2) as ((a & Ha & Hl) & _). apply M3 in Ha. lia.
  - intros (N1 & N2 & N3 & HR & HM).
    destruct (py_max_total _ N1) as (mr & H1), (py_max_total _ N2) as (mp & H2),
      (py_min_total _ N3) as (fi & H3), (py_max_total _ N3) as (la & H4).
    rewrite H1, H2, H3, H4. cbn [bind].
    apply py_max_ok in H1 as [I1 M1], H2 as [I2 M2], H4 as [I4 M4]. apply py_min_ok in H3 as [I3 M3].
    destruct (HR mr mp I1 I2) as ((a & Ha & Hl) & (b & Hb & Hr)). apply M3 in Ha. apply M4 in Hb.
    assert (E : (la - fi + 1 <? mr + mp) = false) by (apply Z.ltb_ge; lia).
    rewrite E. cbn [raise_if bind]. f_equal.
    apply Z.le_antisymm; [lia|]. apply HM. intros r p Hr' Hp. apply M1 in Hr'. apply M2 in Hp. split.
    + exists fi. split; auto. lia.
    + exists la. split; auto. lia.
Qed.

(** otherwise it raises: no start week has room, or a collection is empty *)
Theorem c11_raises_otherwise rs ps hist :
  ~ is_ok (calculate_minimum_start_week_id rs ps hist) <->
  rs = [] \/ ps = [] \/ hist = [] \/ forall s, ~ room_for rs ps hist s.
Proof.
  split.
  - intros H. destruct rs as [|r0 rs]; auto. destruct ps as [|p0 ps]; auto.
    destruct hist as [|h0 hist]; auto. do 3 right. intros s Hs. apply H.
    unfold calculate_minimum_start_week_id.
    destruct (py_max_total (r0 :: rs)) as (mr & H1); [discriminate|].
    destruct (py_max_total (p0 :: ps)) as (mp & H2); [discriminate|].
    destruct (py_min_total (h0 :: hist)) as (fi & H3); [discriminate|].
    destruct (py_max_total (h0 :: hist)) as (la & H4); [discriminate|].
    rewrite H1, H2, H3, H4. cbn [bind].
    apply py_max_ok in H1 as [I1 M1], H2 as [I2 M2], H4 as [I4 M4]. apply py_min_ok in H3 as [I3 M3].
    destruct (Hs mr mp I1 I2) as ((a & Ha & Hl) & (b & Hb & Hr)). apply M3 in Ha. apply M4 in Hb.
    assert (E : (la - fi + 1 <? mr + mp) = false) by (apply Z.ltb_ge; lia).
    rewrite E. eexists. reflexivity.
  - intros H (s & E). apply c11_minimum_start_week_is_least_with_room in E as (N1 & N2 & N3 & HR & _).
    destruct H as [H|[H|[H|H]]]; auto. apply (H s HR).
Qed.

Example c11_example : calculate_minimum_start_week_id [4; 8] [0; 6] [3; 10; 17; 24] = Ok 9.
Proof. reflexivity. Qed.
Example c11_example_too_short : ~ is_ok (calculate_minimum_start_week_id [8] [6] [3; 10]).
Proof. intros (s & H). discriminate. Qed.

Print Assumptions c08_returns_wanted_designs_in_order.
Print Assumptions c08_design_returned_iff.
Print Assumptions c09_washout_value_irrelevant.
Print Assumptions c09_omitted_washout_returns_only_nothing.
Print Assumptions c09_omitted_washout_raises.
Print Assumptions c09_crossover_free_enumeration_refuted.
Print Assumptions c10_returns_iff_every_constructed_design_is_valid.
Print Assumptions c10_invalid_candidates_are_filtered_refuted.
Print Assumptions c11_minimum_start_week_is_least_with_room.
Print Assumptions c11_raises_otherwise.
