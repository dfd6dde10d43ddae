(** C67 - C69: start weeks, bootstrap sampling and random assignment of simulated data. *)
From Coq Require Import ZArith Reals Lia List String Ascii Bool Permutation Sorting.Sorted.
From Flocq Require Import BinarySingleNaN.
Require Import Verif.Base Verif.Num Verif.Frame Verif.F64 Verif.ListLib Verif.Design_Model Verif.Design_Spec Verif.Periods_Model
  Verif.Enumerate_Model Verif.Enumerate_Props Verif.Rows_Model Verif.Checks_Model Verif.Checks_Spec Verif.Checks_Proofs
  Verif.Assign_Model Verif.Assign_Spec Verif.Assign_Proofs Verif.Assign_Props
  Verif.Stats_Model Verif.Pivot_Model Verif.Pivot_Proofs Verif.Pivot_Props Verif.Analysis_Model Verif.Simulation_Model Verif.Sim_Names_Props.
Import ListNotations.
Open Scope string_scope.
Open Scope list_scope.
Open Scope Z_scope.

(** *** C67 *)
Lemma zrange_In a b w : In w (zrange a b) <-> a <= w < b.
Proof.
  unfold zrange. rewrite in_map_iff. split.
  - intros (i & <- & H). apply in_seq in H. lia.
  - intros H. exists (Z.to_nat (w - a)). split; [lia|]. apply in_seq. lia.
Qed.

Theorem c67_start_weeks_have_room :
  forall rs ps hist f week d item minimum period treat threshold s,
    (forall z, In z hist <-> In (CZ z) (col_or_nil week f)) ->
    calculate_minimum_start_week_id rs ps hist = Ok minimum ->
    In (runtime (par d)) rs -> In (pretest (par d)) ps ->
    mk_sim d f item week minimum period treat threshold = Ok s ->
    exists starts, valid_start_week_ids s = Ok starts /\ starts <> [] /\
      (forall w, In w starts -> (exists h, In h hist /\ h <= w - pretest (par d)) /\
                                (exists h, In h hist /\ w + runtime (par d) - 1 <= h)) /\
      (forall w, minimum <= w -> (exists h, In h hist /\ w + runtime (par d) - 1 <= h) -> In w starts).
Proof.
  intros rs ps hist f week d item minimum period treat threshold s HH HM HR HP HS.
  unfold mk_sim in HS. destruct (has_col week f); [|discriminate].
  assert (E : s = mkSim d item week minimum (option_map (fun m => m - runtime (par d) + 1) (max_week f week)) period treat threshold None None None None None None) by congruence.
  subst s. clear HS. apply c11_minimum_start_week_is_least_with_room in HM as (_ & _ & _ & RM & LE).
  destruct (RM _ _ HR HP) as ((a & Ha & La) & (b & Hb & Lb)).
  set (ws := flat_map (fun c => match z_of_cell c with Some z => [z] | None => [] end) (col_or_nil week f)).
  assert (WS : forall z, In z ws <-> In z hist).
  { intros z. rewrite HH. unfold ws. rewrite in_flat_map. split.
    - intros (c & Hc & X). destruct c; simpl in X; try contradiction. destruct X as [->|[]]. auto.
    - intros X. exists (CZ z). split; auto. now left. }
  assert (NE : ws <> []) by (intros E; apply WS in Hb; rewrite E in Hb; destruct Hb).
  destruct (list_max_spec ws NE) as (m & EM & MI & MM).
  exists (zrange minimum (m - runtime (par d) + 1 + 1)). unfold valid_start_week_ids, max_week. fold ws. rewrite EM. cbn [sm_max option_map sm_min].
  split; auto. assert (BM := MM b (proj2 (WS b) Hb)). split; [|split].
  - intros E. assert (X : In minimum (zrange minimum (m - runtime (par d) + 1 + 1))) by (apply zrange_In; lia). rewrite E in X. destruct X.
  - intros w Hw. apply zrange_In in Hw. split; [exists a; split; auto; lia|]. exists m. split; [now apply WS|lia].
  - intros w Hw (h & Hh & Lh). apply zrange_In. assert (X := MM h (proj2 (WS h) Hh)). lia.
Qed.

(** *** C68 *)
Section Boot.
Context {G : Type} (sample_of : G -> nat -> list nat * G).
(** as many positions as rows, each a position of a row *)
Definition samples_positions : Prop :=
  forall g n, List.length (fst (sample_of g n)) = n /\ forall i, In i (fst (sample_of g n)) -> (i < n)%nat.

(** the index of a copy: the item level replaced by a number *)
Definition renamed (names : list string) (item : string) (n : Z) (index index' : list ikey) : Prop :=
  List.length index' = List.length index /\
  forall j name v, nth_error names j = Some name -> nth_error index j = Some v ->
    nth_error index' j = Some (if String.eqb name item then IInt n else v).

Theorem c68_rejects_exactly_the_reserved_names :
  forall x g item, is_ok (snd (bootstrap_sample_data sample_of x g item)) <->
    ~ In (CName "n_samples_") (x_cols x) /\ ~ In (CName "dummy_list_") (x_cols x).
Proof.
  intros x g item. unfold bootstrap_sample_data. destruct (existsb _ (x_cols x)) eqn:E.
  - split; [intros (a & H); discriminate|]. intros [N1 N2]. exfalso. apply existsb_exists in E as (c & Hc & E).
    destruct c as [s|l]; [|discriminate]. apply orb_true_iff in E as [E|E]; apply String.eqb_eq in E; subst; auto.
  - assert (N : forall c, In c (x_cols x) -> c <> CName "n_samples_" /\ c <> CName "dummy_list_").
    { intros c Hc. assert (X := existsb_exists (fun c => match c with CName s => orb (String.eqb s "n_samples_") (String.eqb s "dummy_list_") | CTuple _ => false end) (x_cols x)).
      split; intros ->; (enough (existsb (fun c => match c with CName s => orb (String.eqb s "n_samples_") (String.eqb s "dummy_list_") | CTuple _ => false end) (x_cols x) = true) by congruence);
        apply X; eexists; split; [exact Hc|reflexivity|exact Hc|reflexivity]. }
    split; [intros _; split; intros H; now apply N in H|]. intros _.
    destruct (sample_of g (List.length (x_rows x))) as [ps g']. destruct (x_multi x); eexists; reflexivity.
Qed.

Lemma numbered_nth {A} (l : list A) i : nth_error (combine (seq 0 (List.length l)) l) i = option_map (fun x => (i, x)) (nth_error l i).
Proof.
  assert (X : forall off, nth_error (combine (seq off (List.length l)) l) i = option_map (fun x => ((off + i)%nat, x)) (nth_error l i)).
  { revert i. induction l as [|a l IH]; intros [|i] off; simpl; auto; [f_equal; f_equal; lia|]. rewrite IH. destruct (nth_error l i); simpl; f_equal. f_equal. lia. }
  apply X.
Qed.

Theorem c68_copies_of_rows_with_fresh_ids :
  forall x g item g' x', samples_positions ->
    (x_multi x = true -> forall r, In r (x_rows x) -> List.length (fst r) = List.length (x_names x)) ->
    bootstrap_sample_data sample_of x g item = (g', Ok x') ->
    x_cols x' = x_cols x /\ List.length (x_rows x') = List.length (x_rows x) /\ x_multi x' = x_multi x /\
    x_names x' = (if x_multi x then x_names x else [item]) /\
    (forall i r', nth_error (x_rows x') i = Some r' ->
       exists r, In r (x_rows x) /\ snd r' = snd r /\
         if x_multi x then renamed (x_names x) item (Z.of_nat i) (fst r) (fst r') else fst r' = [IInt (Z.of_nat i)]) /\
    (x_multi x = false \/ In item (x_names x) -> NoDup (map fst (x_rows x'))).
Proof.
  intros x g item g' x' HS HL H. unfold bootstrap_sample_data in H. destruct (existsb _ (x_cols x)); [discriminate|].
  destruct (sample_of g (List.length (x_rows x))) as [ps g1] eqn:ES. destruct (HS g (List.length (x_rows x))) as [L B].
  rewrite ES in L, B. cbn [fst] in L, B.
  set (sampled := map (fun i => nth i (x_rows x) ([], [])) ps) in *.
  assert (SL : List.length sampled = List.length (x_rows x)) by (unfold sampled; now rewrite map_length).
  assert (SI : forall r, In r sampled -> In r (x_rows x)).
  { intros r Hr. unfold sampled in Hr. apply in_map_iff in Hr as (i & <- & Hi). apply nth_In, B, Hi. }
  assert (NDK : forall (F : nat * (list ikey * list num) -> list ikey),
     (forall i j r1 r2, In r1 sampled -> In r2 sampled -> F (i, r1) = F (j, r2) -> i = j) ->
     NoDup (map F (combine (seq 0 (List.length sampled)) sampled))).
  { intros F HF. apply NoDup_nth_error. intros i j Hi E. rewrite map_length, combine_length, seq_length, Nat.min_id in Hi.
    rewrite !nth_error_map, !numbered_nth in E.
    destruct (nth_error sampled i) as [r1|] eqn:E1; [|apply nth_error_None in E1; lia].
    destruct (nth_error sampled j) as [r2|] eqn:E2; [|discriminate]. cbn [option_map] in E.
    apply (HF i j r1 r2); [eapply nth_error_In; eauto|eapply nth_error_In; eauto|congruence]. }
  destruct (x_multi x) eqn:EM.
  - assert (EX : x' = mkInd (x_cols x) (x_names x) true
        (map (fun ir => (map (fun nv => if String.eqb (fst nv) item then IInt (Z.of_nat (fst ir)) else snd nv)
                             (combine (x_names x) (fst (snd ir))), snd (snd ir))) (combine (seq 0 (List.length sampled)) sampled))) by congruence.
    subst x'. cbn [x_cols x_rows x_multi x_names]. clear H. split; auto. split; [rewrite map_length, combine_length, seq_length; lia|].
    split; auto. split; auto. split.
    + intros i r' Hr. rewrite nth_error_map, numbered_nth in Hr. destruct (nth_error sampled i) as [r|] eqn:E1; [|discriminate].
      cbn [option_map fst snd] in Hr. assert (ER : r' = (map (fun nv => if String.eqb (fst nv) item then IInt (Z.of_nat i) else snd nv) (combine (x_names x) (fst r)), snd r)) by congruence.
      subst r'. exists r. assert (IR := SI _ (nth_error_In _ _ E1)). split; auto. split; auto. cbn [fst]. specialize (HL eq_refl r IR). split.
      * rewrite map_length, combine_length. lia.
      * intros j name v N1 N2. rewrite nth_error_map.
        assert (C : forall (a : list string) (b : list ikey) j u w, nth_error a j = Some u -> nth_error b j = Some w -> nth_error (combine a b) j = Some (u, w)).
        { induction a as [|a0 a IH]; intros [|b0 b] [|k] u w Ha Hb; simpl in *; try discriminate; [congruence|auto]. }
        rewrite (C _ _ _ _ _ N1 N2). reflexivity.
    + intros [F|HI]; [discriminate|]. rewrite map_map. cbn [fst]. apply NDK. intros i j r1 r2 I1 I2 E. cbn [fst snd] in E.
      apply In_nth_error in HI as (k & Hk).
      assert (Q : forall r n, In r sampled -> nth_error (map (fun nv : string * ikey => if String.eqb (fst nv) item then IInt n else snd nv) (combine (x_names x) (fst r))) k = Some (IInt n)).
      { intros r n IR. specialize (HL eq_refl r (SI _ IR)).
        destruct (nth_error (fst r) k) as [v|] eqn:EV.
        - rewrite nth_error_map.
          assert (C : forall (a : list string) (b : list ikey) j u w, nth_error a j = Some u -> nth_error b j = Some w -> nth_error (combine a b) j = Some (u, w)).
          { induction a as [|a0 a IH]; intros [|b0 b] [|k0] u w Ha Hb; simpl in *; try discriminate; [congruence|auto]. }
          rewrite (C _ _ _ _ _ Hk EV). cbn [option_map fst snd]. now rewrite String.eqb_refl.
        - apply nth_error_None in EV. assert (k < List.length (x_names x))%nat by (apply nth_error_Some; congruence). lia. }
      assert (Q1 := Q r1 (Z.of_nat i) I1). assert (Q2 := Q r2 (Z.of_nat j) I2). rewrite E in Q1. rewrite Q1 in Q2. inversion Q2. lia.
  - assert (EX : x' = mkInd (x_cols x) [item] false (map (fun ir => ([IInt (Z.of_nat (fst ir))], snd (snd ir))) (combine (seq 0 (List.length sampled)) sampled))) by congruence.
    subst x'. cbn [x_cols x_rows x_multi x_names]. clear H. split; auto. split; [rewrite map_length, combine_length, seq_length; lia|].
    split; auto. split; auto. split.
    + intros i r' Hr. rewrite nth_error_map, numbered_nth in Hr. destruct (nth_error sampled i) as [r|] eqn:E1; [|discriminate].
      cbn [option_map fst snd] in Hr. assert (ER : r' = ([IInt (Z.of_nat i)], snd r)) by congruence. subst r'. exists r. split; auto.
      apply SI. eapply nth_error_In; eauto.
    + intros _. rewrite map_map. cbn [fst]. apply NDK. intros i j r1 r2 _ _ E. cbn [fst] in E. inversion E. lia.
Qed.
(** the rows of the sample are those at the drawn positions, in the order of the draws *)
Theorem c68_the_drawn_rows :
  forall x g item g' x', samples_positions ->
    bootstrap_sample_data sample_of x g item = (g', Ok x') ->
    g' = snd (sample_of g (List.length (x_rows x))) /\
    Forall2 (fun position r' => exists r, nth_error (x_rows x) position = Some r /\ snd r' = snd r)
      (fst (sample_of g (List.length (x_rows x)))) (x_rows x').
Proof.
  intros x g item g' x' HS H. unfold bootstrap_sample_data in H. destruct (existsb _ (x_cols x)); [discriminate|].
  destruct (HS g (List.length (x_rows x))) as [L B].
  destruct (sample_of g (List.length (x_rows x))) as [ps g1] eqn:ES. cbn [fst snd] in *.
  set (sampled := map (fun i => nth i (x_rows x) ([], [])) ps) in *.
  assert (X : forall (F : nat * (list ikey * list num) -> list ikey) n, 
     Forall2 (fun position r' => exists r, nth_error (x_rows x) position = Some r /\ snd r' = snd r) ps
       (map (fun ir => (F ir, snd (snd ir))) (combine (seq n (List.length sampled)) sampled))).
  { intros F. unfold sampled. clear - B. induction ps as [|i ps IH]; intros n; simpl; constructor; [|apply IH; intros; apply B; now right].
    exists (nth i (x_rows x) ([], [])). split; auto. apply nth_error_nth'. apply B. now left. }
  destruct (x_multi x).
  - split; [congruence|]. assert (EX := f_equal (fun r => match snd r with Ok y => x_rows y | Err _ => [] end) H). cbn [snd x_rows] in EX. rewrite <- EX. apply X.
  - split; [congruence|]. assert (EX := f_equal (fun r => match snd r with Ok y => x_rows y | Err _ => [] end) H). cbn [snd x_rows] in EX. rewrite <- EX.
    apply (X (fun ir => [IInt (Z.of_nat (fst ir))])).
Qed.
End Boot.

Lemma subseq_length {A} (l m : list A) : subseq l m -> (List.length l <= List.length m)%nat.
Proof. induction 1; simpl; lia. Qed.
Lemma trim_subseq {A} (value : A -> num) a b sh rows out : trim_outliers value a b sh rows = Ok out -> subseq out rows.
Proof.
  intros H. apply trim_ok_inv in H as (kt & kb & _ & _ & [(_ & _ & ->)| ->]); [apply subseq_refl|].
  destruct rows as [|d r] eqn:E; [constructor|]. rewrite <- E. clear E. rewrite (loc_rows_eq d).
  rewrite <- (map_nth_seq d rows) at 4. apply subseq_filter.
Qed.

(** *** C68: in a simulation *)
Lemma pivot_columns p start m rows t : pivot_rows akeqb akleb p start [m] rows = Ok t ->
  forall c, In c (t_cols t) -> fst c = m /\ In (snd c) period_names.
Proof.
  assert (PT : forall lab, (forall w s, lab w = Some s -> In s period_names) ->
     forall c, In c (t_cols (pivot_table akeqb akleb lab [m] rows)) -> fst c = m /\ In (snd c) period_names).
  { intros lab HL [c1 c2] H. unfold pivot_table in H. cbn [t_cols] in H. apply in_prod_iff in H as [H1 H2].
    destruct H1 as [->|[]]. split; auto. cbn [snd]. apply isort_In in H2. apply (proj1 (dedup_In String.eqb String.eqb_eq _ _)) in H2.
    apply in_map_iff in H2 as ([[k s] v] & <- & H2). cbn [fst snd]. unfold agged in H2. apply filter_In in H2 as [H2 _].
    apply in_map_iff in H2 as (g & Eg & Hg). unfold groupby in Hg. apply in_map_iff in Hg as (kk & <- & Hk). cbn [fst] in Eg.
    assert (EK : kk = (k, s)) by congruence. subst kk.
    unfold kp_eqb, kp_leb in Hk. apply group_keys_In in Hk as (r & Hr & Er); [|apply ord_pair; [apply akey_ord|apply ord_string]]. unfold labelled in Hr. apply in_flat_map in Hr as (q & _ & Hq).
    destruct (row_label lab q) as [s'|] eqn:EL; [|destruct Hq]. destruct Hq as [<-|[]]. cbn [fst] in Er.
    assert (ES : s' = s) by congruence. subst s'. unfold row_label in EL. destruct (p_week q); [|discriminate]. eauto. }
  assert (RL : forall a b c w s, regular_label a b c w = Some s -> In s period_names).
  { intros a b c w s. unfold regular_label, overwrite. destruct (get_weeks_between _ _ _); [|destruct (get_weeks_between _ _ _)]; intros [=<-]; simpl; auto. }
  assert (CL : forall a b c d w s, crossover_label a b c d w = Some s -> In s period_names).
  { intros a b c d w s. unfold crossover_label, overwrite. cbv zeta.
    repeat (destruct (get_weeks_between _ _ _); [intros [=<-]; simpl; auto 7|]). discriminate. }
  assert (DV : forall s w (q : table akey), t_cols (divide_period s w q) = t_cols q) by reflexivity.
  assert (DI : forall s w (q : table akey), t_cols (divide_if_present s w q) = t_cols q).
  { intros. unfold divide_if_present. now destruct (has_period s q). }
  unfold pivot_rows. destruct (crossover p).
  - destruct (washout p) as [wash|]; [|discriminate]. intros H. apply (f_equal (fun r => match r with Ok a => t_cols a | Err _ => [] end)) in H.
    unfold pivot_crossover in H. rewrite !DI in H. rewrite <- H. eapply PT. eauto.
  - intros H. unfold pivot_regular in H. destruct (has_period "test" _); [|discriminate].
    apply (f_equal (fun r => match r with Ok a => t_cols a | Err _ => [] end)) in H. rewrite DV, DI in H. rewrite <- H. eapply PT. eauto.
Qed.

(** the columns of the pivoted data are pairs, so no name of a metric is rejected *)
Theorem c68_reserved_names_are_never_seen_in_a_simulation :
  forall G (sample_of : G -> nat -> list nat * G) t g item,
    is_ok (snd (bootstrap_sample_data sample_of (as_indexed item t) g item)).
Proof.
  intros. apply c68_rejects_exactly_the_reserved_names. unfold as_indexed. cbn [x_cols].
  split; intros H; apply in_map_iff in H as (c & H & _); discriminate.
Qed.

(** the simulated data: as many rows, numbered, then trimmed; ids stay distinct *)
Theorem c68_simulated_rows_have_distinct_ids :
  forall G (shuffle_of sample_of : G -> nat -> list nat * G) s start f g f' g' t,
    samples_positions sample_of -> 
    get_pivoted_and_trimmed shuffle_of sample_of s start true (f, g) = ((f', g'), Ok t) ->
    NoDup (map fst (t_rows t)) /\
    exists t0, snd (pivot_time_assignment f (par (sm_design s)) start [metric (par (sm_design s))] (sm_item s) (sm_week s) None (sm_period s)) = Ok t0 /\
      t_cols t = t_cols t0 /\ (List.length (t_rows t) <= List.length (t_rows t0))%nat /\
      forall r, In r (t_rows t) -> exists n r0, fst r = IInt (Z.of_nat n) /\ (n < List.length (t_rows t0))%nat /\ In r0 (t_rows t0) /\ snd r = snd r0.
Proof.
  intros G shuffle_of sample_of s start f g f' g' t HS H. unfold get_pivoted_and_trimmed, sbind, on_frame, on_rng, sret in H. cbn [fst snd] in H.
  destruct (pivot_time_assignment f (par (sm_design s)) start _ _ _ _ _) as [f1 [t0|e]]; [|discriminate]. cbn [fst snd] in H.
  set (t1 := mkT (t_cols t0) (map (fun r => (IStr (fst (fst r)), snd r)) (t_rows t0))) in *.
  destruct (bootstrap_sample_data sample_of (as_indexed (sm_item s) t1) g (sm_item s)) as [g1 [x|e]] eqn:EB; [|discriminate].
  cbn [bind fst snd] in H.
  apply c68_copies_of_rows_with_fresh_ids in EB as (_ & BL & _ & _ & BR & BN); auto; [|cbn; discriminate].
  specialize (BN (or_introl eq_refl)). change (x_multi (as_indexed (sm_item s) t1)) with false in BR. cbv iota in BR.
  cbn [as_indexed x_rows] in BL, BR. rewrite map_length in BL. unfold t1 in BL at 1. cbn [t_rows] in BL. rewrite map_length in BL. change (string * list Z)%type with akey in BL.
  cbn [negb andb raise_if t_rows of_indexed] in H.
  set (t2 := of_indexed (t_cols t1) x) in *.
  assert (I1 : forall r, In r (x_rows x) -> exists n r0, fst r = [IInt (Z.of_nat n)] /\ (n < List.length (t_rows t0))%nat /\ In r0 (t_rows t0) /\ snd r = snd r0).
  { intros r Hr. apply In_nth_error in Hr as (i & Hi). destruct (BR _ _ Hi) as (r0 & H0 & E1 & E2).
    apply in_map_iff in H0 as (r1 & <- & H1). unfold t1 in H1. cbn [t_rows] in H1. apply in_map_iff in H1 as (r2 & <- & H2).
    exists i, r2. split; auto. split; [|auto]. rewrite <- BL. apply nth_error_Some. congruence. }
  assert (I2 : forall r, In r (t_rows t2) -> exists n r0, fst r = IInt (Z.of_nat n) /\ (n < List.length (t_rows t0))%nat /\ In r0 (t_rows t0) /\ snd r = snd r0).
  { intros r Hr. cbn in Hr. apply in_map_iff in Hr as (r1 & <- & H1). destruct (I1 _ H1) as (n & r0 & A & B & Cc & D).
    exists n, r0. cbn [fst snd]. rewrite A. auto. }
  assert (N2 : NoDup (map fst (t_rows t2))).
  { cbn. rewrite map_map. cbn [fst]. rewrite <- (map_map fst (hd (IStr ""))). apply NoDup_map_inj; auto.
    intros a b Ha Hb E. apply in_map_iff in Ha as (ra & <- & Ha). apply in_map_iff in Hb as (rb & <- & Hb).
    destruct (I1 _ Ha) as (n & _ & A & _). destruct (I1 _ Hb) as (n' & _ & B & _). rewrite A, B in *. cbn [hd] in E. congruence. }
  assert (L2 : List.length (t_rows t2) = List.length (t_rows t0)) by (cbn; rewrite map_length; exact BL).
  assert (DONE : t_cols t = t_cols t0 -> subseq (t_rows t) (t_rows t2) ->
    NoDup (map fst (t_rows t)) /\
    exists t3, Ok t0 = Ok t3 /\
      t_cols t = t_cols t3 /\ (List.length (t_rows t) <= List.length (t_rows t3))%nat /\
      forall r, In r (t_rows t) -> exists n r0, fst r = IInt (Z.of_nat n) /\ (n < List.length (t_rows t3))%nat /\ In r0 (t_rows t3) /\ snd r = snd r0).
  { intros EC SQ. split; [eapply subseq_NoDup; [apply subseq_map; exact SQ|exact N2]|]. exists t0. split; auto. split; auto.
    split; [rewrite <- L2; now apply subseq_length|]. intros r Hr. apply I2. eapply subseq_In; eauto. }
  cbn [snd]. destruct (0 <? pretest (par (sm_design s))).
  - unfold trim_pivoted in H. cbn [fst snd] in H. destruct (trim_outliers _ _ _ _ (t_rows t2)) as [rows|e] eqn:ET; [|discriminate].
    destruct (andb _ _); [discriminate|]. cbn [fst snd] in H.
    assert (Et : t = mkT (t_cols t2) rows) by congruence. subst t. apply DONE; [reflexivity|]. cbn [t_rows].
    now apply trim_subseq in ET.
  - assert (Et : t = t2) by congruence. subst t. apply DONE; [reflexivity|apply subseq_refl].
Qed.

(** *** C69: random assignment *)
Lemma ikeqb_eq a b : ikeqb a b = true <-> a = b.
Proof.
  destruct a, b; simpl; try (split; discriminate).
  - rewrite String.eqb_eq. split; congruence.
  - rewrite Z.eqb_eq. split; congruence.
Qed.
Lemma first_position_lt k l : In k l -> (first_position k l < List.length l)%nat.
Proof.
  induction l as [|x l IH]; [intros []|]. simpl. intros H. destruct (ikeqb k x) eqn:E; [lia|].
  destruct H as [->|H]; [|specialize (IH H); lia]. rewrite (proj2 (ikeqb_eq k k) eq_refl) in E. discriminate.
Qed.
Lemma first_position_nth l : NoDup l -> forall i d, (i < List.length l)%nat -> first_position (nth i l d) l = i.
Proof.
  induction 1 as [|x l HN _ IH]; intros i d Hi; simpl in *; [lia|]. destruct i as [|i]; simpl.
  - now rewrite (proj2 (ikeqb_eq x x) eq_refl).
  - destruct (ikeqb (nth i l d) x) eqn:E.
    + apply ikeqb_eq in E. subst. exfalso. apply HN. apply nth_In. lia.
    + f_equal. apply IH. lia.
Qed.

Section Assign.
Context {G : Type} (arms_of : G -> nat -> list Z * G).
(** one of 0 and 1 per item *)
Definition draws_arms : Prop := forall g n, List.length (fst (arms_of g n)) = n /\ forall a, In a (fst (arms_of g n)) -> a = 0 \/ a = 1.

Theorem c69_every_item_gets_one_arm :
  forall t g item treat g' a, draws_arms ->
    apply_random_treatment_assignment arms_of t g item treat = (g', Ok a) ->
    map (fun r => (fst (fst r), snd r)) (a_rows a) = t_rows t /\
    (forall r, In r (a_rows a) -> snd (fst r) = 0 \/ snd (fst r) = 1) /\
    (forall r1 r2, In r1 (a_rows a) -> In r2 (a_rows a) -> fst (fst r1) = fst (fst r2) -> snd (fst r1) = snd (fst r2)) /\
    (* one draw per item *)
    exists items, NoDup items /\ (forall k, In k items <-> In k (map fst (t_rows t))) /\
      forall i k, nth_error items i = Some k -> forall r, In r (a_rows a) -> fst (fst r) = k ->
        nth_error (fst (arms_of g (List.length items))) i = Some (snd (fst r)).
Proof.
  intros t g item treat g' a HA H. unfold apply_random_treatment_assignment in H.
  destruct (orb _ _); [discriminate|]. destruct (negb _); [discriminate|].
  set (items := dedup ikeqb (map fst (t_rows t))) in *.
  destruct (arms_of g (List.length items)) as [arms g1] eqn:EA. destruct (HA g (List.length items)) as [LA VA]. rewrite EA in LA, VA. cbn [fst] in LA, VA.
  destruct (existsb (String.eqb item) _); [discriminate|]. destruct (existsb (String.eqb treat) _); [discriminate|].
  assert (E : a_rows a = map (fun r => ((fst r, nth (first_position (fst r) items) arms 0), snd r)) (t_rows t)).
  { assert (X := f_equal (fun r => match snd r with Ok x => a_rows x | Err _ => [] end) H). symmetry. exact X. }
  assert (II : forall r, In r (t_rows t) -> In (fst r) items).
  { intros r Hr. apply (proj2 (dedup_In ikeqb ikeqb_eq _ _)). now apply in_map. }
  rewrite E. split; [|split; [|split]].
  - rewrite map_map. cbn [fst snd]. rewrite <- map_id. apply map_ext. now intros [k v].
  - intros r Hr. apply in_map_iff in Hr as (r0 & <- & H0). cbn [fst snd]. apply VA, nth_In. rewrite LA. apply first_position_lt, II, H0.
  - intros r1 r2 H1 H2. apply in_map_iff in H1 as (q1 & <- & H1). apply in_map_iff in H2 as (q2 & <- & H2). cbn [fst snd]. now intros ->.
  - exists items. split; [apply dedup_NoDup, ikeqb_eq|]. split; [apply dedup_In, ikeqb_eq|].
    intros i k Hk r Hr Ek. rewrite EA. cbn [fst]. apply in_map_iff in Hr as (r0 & <- & H0). cbn [fst snd] in *. subst k.
    assert (Hi : (i < List.length items)%nat) by (apply nth_error_Some; congruence).
    assert (Q := first_position_nth items (dedup_NoDup ikeqb ikeqb_eq _) i (fst r0) Hi).
    rewrite (nth_error_nth _ _ _ Hk) in Q. rewrite Q. apply nth_error_nth'. lia.
Qed.

Lemma flat_item item : plain_name item -> flat_name (item, "") = item.
Proof.
  intros (N0 & N1 & N2 & N3). unfold flat_name, strip. cbn [fst snd]. rewrite lstrip_id.
  - change ("__" ++ "")%string with "__". clear N0 N1 N3. induction item as [|c item IH]; [reflexivity|]. simpl. rewrite IH.
    + destruct (Ascii.eqb c underscore) eqn:E; [|reflexivity]. destruct item as [|c' item]; [|reflexivity].
      apply is_underscore in E. subst. exfalso. apply N2. now exists "".
    + intros (r & F). apply N2. exists (String c r). simpl. now rewrite F.
  - intros (r & E). apply N1. destruct item as [|c item]; [congruence|]. inversion E; subst. now exists item.
Qed.

(** names that can be used together: plain, different, and without "__" *)
Theorem c69_plain_names_come_back :
  forall m item treat t g, plain_name m -> plain_name item -> ~ has_double_underscore treat -> m <> treat -> item <> treat ->
    (forall c, In c (t_cols t) -> fst c = m /\ In (snd c) period_names) ->
    exists a, snd (apply_random_treatment_assignment arms_of t g item treat) = Ok a /\
      as_table m a = Ok (mkT (t_cols t) (a_rows a)).
Proof.
  intros m item treat t g PM PI NT N1 N2 HC. unfold apply_random_treatment_assignment.
  assert (E1 : orb (String.eqb treat item) (existsb (fun c => String.eqb treat (fst c)) (t_cols t)) = false).
  { apply orb_false_iff. split; [apply String.eqb_neq; congruence|]. apply existsb_false_iff. intros c Hc.
    apply HC in Hc as [-> _]. apply String.eqb_neq. congruence. }
  rewrite E1, flat_item by auto. rewrite String.eqb_refl. cbn [negb].
  destruct (arms_of g _) as [arms g']. 
  assert (FL : forall x, In x (map flat_name (t_cols t)) -> has_double_underscore x).
  { intros x Hx. apply in_map_iff in Hx as ([m' s] & <- & Hc). destruct (HC _ Hc) as [E Hs]. cbn [fst snd] in *. subst m'.
    destruct (period_names_plain s Hs) as (S0 & S1 & S2 & S3). destruct PM as (M0 & M1 & _). rewrite flat_plain by auto. now exists m, s. }
  assert (E2 : existsb (String.eqb item) (map flat_name (t_cols t)) = false).
  { apply existsb_false_iff. intros x Hx. apply String.eqb_neq. intros <-. apply FL in Hx. now apply PI. }
  assert (E3 : existsb (String.eqb treat) (map flat_name (t_cols t)) = false).
  { apply existsb_false_iff. intros x Hx. apply String.eqb_neq. intros <-. apply FL in Hx. now apply NT. }
  rewrite E2, E3. cbn [snd]. eexists. split; [reflexivity|]. unfold as_table. cbn [a_cols a_rows].
  rewrite map_map, (mapM_total _ (fun c => (hd "" c, hd "" (tl c)))).
  - cbn [bind]. do 2 f_equal. rewrite map_map. rewrite <- (map_id (t_cols t)) at 2. apply map_ext_in. intros [m' s] Hc. destruct (HC _ Hc) as [E Hs]. cbn [fst snd] in *. subst m'.
    rewrite (proj2 (c69_name_round_trip m s Hs) PM). reflexivity.
  - intros c Hc. apply in_map_iff in Hc as ([m' s] & <- & Hc). destruct (HC _ Hc) as [E Hs]. cbn [fst snd] in *. subst m'.
    rewrite (proj2 (c69_name_round_trip m s Hs) PM). reflexivity.
Qed.
End Assign.

(** with any other name of the primary metric no design can be validated *)
Theorem c69_other_metric_names_cannot_be_validated :
  forall T argsort G (shuffle_of sample_of : G -> nat -> list nat * G) arms_of choice_of s n x s' x',
    ~ plain_name (metric (par (sm_design s))) ->
    run_validate_design T argsort shuffle_of sample_of arms_of choice_of s (S n) x <> ((s', x'), Ok tt).
Proof.
  intros T argsort G shuffle_of sample_of arms_of choice_of s n x s' x' NP H. unfold run_validate_design in H.
  destruct (sm_mde s) as [mde|]; [|discriminate].
  cbn [seq smap] in H. unfold sbind in H at 1.
  assert (X : forall y, exists y' e, simulate_once T argsort shuffle_of sample_of arms_of choice_of s mde y = (y', Err e)).
  { intros [f g]. clear H. destruct (simulate_once T argsort shuffle_of sample_of arms_of choice_of s mde (f, g)) as [y' [r|e]] eqn:H; [exfalso|eauto].
    set (m := metric (par (sm_design s))) in *.
    unfold simulate_once in H. unfold sbind at 1 in H. unfold sret at 1 in H.
    destruct (valid_start_week_ids s) as [starts|]; [|discriminate]. unfold sbind at 1 in H.
    destruct starts as [|w starts]; [discriminate|]. unfold on_rng at 1 in H.
    destruct (choice_of _ _) as [start g1]. unfold sbind at 1 in H.
    destruct (get_pivoted_and_trimmed shuffle_of sample_of s start true (fst (f, g), g1)) as [[f2 g2] [t|]] eqn:EG; [|discriminate].
    unfold sbind at 1 in H. unfold on_rng in H.
    destruct (apply_random_treatment_assignment arms_of t (snd (f2, g2)) (sm_item s) (sm_treatment s)) as [g3 [a|]] eqn:EA; [|discriminate].
    unfold sret in H.
    assert (HC : forall c, In c (t_cols t) -> fst c = m /\ In (snd c) period_names).
    { cbn [fst] in EG. unfold get_pivoted_and_trimmed, sbind, on_frame, on_rng, sret in EG. cbn [fst snd] in EG.
      destruct (pivot_time_assignment f (par (sm_design s)) start _ _ _ _ _) as [f1 [t0|e]] eqn:EP; [|discriminate].
      assert (C0 : forall c, In c (t_cols t0) -> fst c = m /\ In (snd c) period_names).
      { unfold pivot_time_assignment in EP. destruct (has_col _ f); [discriminate|]. destruct (existsb _ _); [discriminate|].
        destruct (label_fun _ _); [|discriminate]. destruct (pivot_rows _ _ _ _ _ _) as [t1|] eqn:E1; [|discriminate].
        assert (t1 = t0) by congruence. subst t1. eapply pivot_columns. exact E1. }
      cbn [fst snd] in EG. destruct (bootstrap_sample_data _ _ _ _) as [g4 [x1|]]; [|discriminate]. cbn [bind fst snd negb andb raise_if] in EG.
      destruct (0 <? _).
      - unfold trim_pivoted in EG. cbn [fst snd] in EG. destruct (trim_outliers _ _ _ _ _) as [l|]; [|discriminate]. destruct (andb _ _); [discriminate|].
        cbn [fst snd] in EG. assert (E : t = mkT (t_cols t0) l) by (cbn [of_indexed t_cols] in EG; congruence). now subst t.
      - cbn [of_indexed t_cols] in EG. apply (f_equal (fun r => match snd r with Ok x => t_cols x | Err _ => [] end)) in EG.
        cbn [snd of_indexed t_cols] in EG. now rewrite <- EG. }
    assert (RA : forall tt, as_table m a = Ok tt -> existsb (fun c => String.eqb m (fst c)) (t_cols tt) = false).
    { intros q Hq. unfold apply_random_treatment_assignment in EA. destruct (orb _ _); [discriminate|]. destruct (negb _); [discriminate|].
      destruct (arms_of _ _) as [arms g4]. destruct (existsb (String.eqb (sm_item s)) _); [discriminate|]. destruct (existsb (String.eqb (sm_treatment s)) _); [discriminate|].
      assert (AC := f_equal (fun r => match snd r with Ok x => a_cols x | Err _ => [] end) EA). cbn [snd a_cols] in AC.
      unfold as_table in Hq. apply bind_ok in Hq as (cols & Hq & EQ). assert (ET : t_cols q = cols) by (assert (X := f_equal (fun r => match r with Ok x => t_cols x | Err _ => [] end) EQ); symmetry; exact X).
      rewrite ET. apply existsb_false_iff. intros c Hc. apply String.eqb_neq. intros Em.
      apply mapM_ok in Hq. rewrite <- AC in Hq.
      assert (FI : forall (l : list (list string)) l', Forall2 (fun c p => match pair_of c with Some p => Ok p | None => Err (KeyError m) end = Ok p) l l' ->
         forall p, In p l' -> exists c, In c l /\ pair_of c = Some p).
      { clear. induction 1 as [|c p l l' Hcp _ IH]; intros q; [intros []|]. intros [->|I].
        - exists c. split; [now left|]. destruct (pair_of c); congruence.
        - destruct (IH _ I) as (c' & ? & ?). exists c'. split; [now right|auto]. }
      destruct (FI _ _ Hq _ Hc) as (l & Hl & Pl). rewrite map_map in Hl. apply in_map_iff in Hl as ([m' sx] & El & Hx).
      destruct (HC _ Hx) as [E Hs]. cbn [fst snd] in *. subst m'. apply (c69_other_names_are_lost m sx Hs NP).
      rewrite El. destruct l as [|l1 [|l2 [|]]]; try discriminate. cbn [hd pair_of] in *. inversion Pl. now subst c. }
    fold m in H. destruct (as_table m a) as [q|] eqn:EQ; cbn [bind] in H; [|congruence].
    specialize (RA q eq_refl). unfold analyze_single_metric at 1 in H. unfold metric_subset in H at 1. rewrite RA in H. cbn [bind] in H. congruence. }
  destruct (X x) as (y' & e & EX). rewrite EX in H. discriminate.
Qed.

(** *** examples *)
Definition weeks_frame : frame := [("week", map CZ [3; 10; 17; 24]); ("item", repeat (CStr "a") 4)].
Definition short_params : params := mkParams 1000 8 "clicks" 6 false f0 f0 f0 None (flit 5 100) (flit 8 10) None.
Definition short_design : design := mkDesignRec short_params 1000 1000.
Example c67_example : exists s, mk_sim short_design weeks_frame "item" "week" 9 "period" "arm" 0%R = Ok s /\
  valid_start_week_ids s = Ok (map Z.of_nat (seq 9 9)) /\
  (* the hypotheses of the theorem hold *)
  calculate_minimum_start_week_id [4; 8] [0; 6] [3; 10; 17; 24] = Ok 9 /\ In (runtime short_params) [4; 8] /\ In (pretest short_params) [0; 6] /\
  forall z, In z [3; 10; 17; 24] <-> In (CZ z) (col_or_nil "week" weeks_frame).
Proof.
  eexists. split; [reflexivity|]. split; [reflexivity|]. split; [reflexivity|]. split; [simpl; auto|]. split; [simpl; auto|].
  intros z. cbn. split; intros H; decompose [or] H; subst; auto; try contradiction;
    match goal with E : CZ _ = CZ _ |- _ => inversion E; subst; auto end.
Qed.

(** always the first row *)
Definition same_row (g : unit) (n : nat) : list nat * unit := (repeat 0%nat n, g).
Lemma same_row_samples : samples_positions same_row.
Proof. intros g n. cbn. split; [apply repeat_length|]. intros i H. destruct n; [destruct H|]. apply repeat_spec in H. subst. lia. Qed.
Example c68_example :
  snd (bootstrap_sample_data same_row
         (mkInd [CName "clicks"] ["item"; "arm"] true [([IStr "a"; IInt 1], [Fin 5%R]); ([IStr "b"; IInt 0], [Fin 7%R])]) tt "item") =
  Ok (mkInd [CName "clicks"] ["item"; "arm"] true [([IInt 0; IInt 1], [Fin 5%R]); ([IInt 1; IInt 1], [Fin 5%R])]).
Proof. reflexivity. Qed.
Example c68_example_reserved :
  ~ is_ok (snd (bootstrap_sample_data same_row (mkInd [CName "n_samples_"] ["item"] false []) tt "item")).
Proof. intros (x & H). discriminate. Qed.

Definition alternate (g : unit) (n : nat) : list Z * unit := (map (fun i => Z.of_nat (i mod 2)) (seq 0 n), g).
Lemma alternate_draws : draws_arms alternate.
Proof.
  intros g n. unfold alternate. cbn [fst]. split; [now rewrite map_length, seq_length|]. intros a H. apply in_map_iff in H as (i & <- & _).
  assert (i mod 2 < 2)%nat by (apply Nat.mod_upper_bound; lia). destruct (i mod 2)%nat as [|[|]]; [now left|now right|lia].
Qed.
Example c69_example_assignment :
  snd (apply_random_treatment_assignment alternate
         (mkT [("clicks", "test")] [(IStr "a", [Fin 1%R]); (IStr "b", [Fin 2%R]); (IStr "a", [Fin 3%R])]) tt "item" "arm") =
  Ok (mkAs [["clicks"; "test"]] [((IStr "a", 0), [Fin 1%R]); ((IStr "b", 1), [Fin 2%R]); ((IStr "a", 0), [Fin 3%R])]).
Proof. reflexivity. Qed.
Example c69_example_lost_name :
  snd (apply_random_treatment_assignment alternate (mkT [("ads__clicks", "test")] [(IStr "a", [Fin 1%R])]) tt "item" "arm") =
  Ok (mkAs [["ads"; "clicks"; "test"]] [((IStr "a", 0), [Fin 1%R])]).
Proof. reflexivity. Qed.

Print Assumptions c67_start_weeks_have_room.
Print Assumptions c68_rejects_exactly_the_reserved_names.
Print Assumptions c68_copies_of_rows_with_fresh_ids.
Print Assumptions c68_the_drawn_rows.
Print Assumptions c68_reserved_names_are_never_seen_in_a_simulation.
Print Assumptions c68_simulated_rows_have_distinct_ids.
Print Assumptions c69_every_item_gets_one_arm.
Print Assumptions c69_plain_names_come_back.
Print Assumptions c69_other_metric_names_cannot_be_validated.
