(** C63, C64: how much of a synthetic effect the analysis finds. *)
From Coq Require Import ZArith Reals Lra Lia List String Bool Permutation Sorting.Sorted.
From Flocq Require Import Core BinarySingleNaN.
Require Import Verif.Base Verif.Num Verif.NumOrd Verif.F64 Verif.ListLib Verif.Design_Model Verif.Design_Spec Verif.Design_Proofs Verif.Design_Props
  Verif.Trimmed_Model Verif.Trimmed_Spec Verif.Moments Verif.Trimmed_Proofs Verif.Trimmed_Real Verif.Trimmed_Props
  Verif.Cuped_Model Verif.Cuped_Props Verif.Stats_Model Verif.Stats_Num Verif.Stats_Props Verif.Tests_Proofs
  Verif.Tests_Props Verif.Tests_Props2 Verif.Pivot_Model Verif.Analysis_Spec Verif.Analysis_Model Verif.Analysis_Props.
Import ListNotations.
Open Scope string_scope.
Open Scope list_scope.
Open Scope R_scope.

Lemma sorted_exists xs : exists s, sorted_as xs s.
Proof.
  induction xs as [|x xs (s & P & SS)]; [exists []; split; constructor|].
  assert (INS : forall s, StronglySorted Rle s -> exists s', Permutation (x :: s) s' /\ StronglySorted Rle s').
  { clear. induction 1 as [|a s SS IH F]; [exists [x]; split; auto; repeat constructor|].
    destruct (Rle_dec x a) as [L|L].
    - exists (x :: a :: s). split; auto. constructor; [now constructor|]. constructor; auto.
      eapply Forall_impl; [|exact F]. simpl. intros; lra.
    - destruct IH as (s' & P' & SS'). exists (a :: s'). split; [rewrite perm_swap; now constructor|].
      constructor; auto. apply (Permutation_Forall P'). constructor; [lra|auto]. }
  destruct (INS s SS) as (s' & P' & SS'). exists s'. split; auto. rewrite <- P'. now constructor.
Qed.

Lemma is_zero_iff q : is_finite q = true -> (is_zero q = true <-> B2R q = 0).
Proof.
  intros F. unfold is_zero, feqb. destruct f0_val as [F0 V0]. rewrite Beqb_correct, V0 by auto.
  case Req_bool_spec; split; auto; try discriminate; contradiction.
Qed.

Lemma usable_sample xs q : usable (List.length xs) q -> sample xs.
Proof. intros (A & B & _). split; auto. destruct xs; simpl in *; [lia|discriminate]. Qed.

Section Effects.
Context {K : Type} (arm : K -> option Z).

Lemma affected_finite e l :
  map (affected (fun x => nadd x (Fin e))) (map finite l) = map finite (map (affected (fun x => x + e)) l).
Proof.
  rewrite !map_map. apply map_ext. intros c. unfold affected, finite. cbn [x_arm x_one x_two].
  now destruct (in_treatment_arm (x_arm c)).
Qed.
Lemma treated_finite l : map while_treated (map finite l) = data (map while_treated l).
Proof.
  unfold data. rewrite !map_map. apply map_ext. intros c. unfold while_treated, finite. cbn [x_arm x_one x_two].
  now destruct (in_treatment_arm (x_arm c)).
Qed.
Lemma control_finite l : map while_control (map finite l) = data (map while_control l).
Proof.
  unfold data. rewrite !map_map. apply map_ext. intros c. unfold while_control, finite. cbn [x_arm x_one x_two].
  now destruct (in_treatment_arm (x_arm c)).
Qed.

(** adding a constant to every difference *)
Lemma paired_shift T argsort xs ys xs' ys' q e : sorts argsort -> usable (List.length xs) q ->
  List.length ys = List.length xs -> List.length xs' = List.length xs -> List.length ys' = List.length xs ->
  minus xs' ys' = map (fun x => x + e) (minus xs ys) ->
  exists r r' d,
    yuens_t_test_paired T argsort (data xs) (data ys) q None None "two-sided" default_alpha = Ok r /\
    yuens_t_test_paired T argsort (data xs') (data ys') q None None "two-sided" default_alpha = Ok r' /\
    r_abs r = Fin d /\ r_abs r' = Fin (d + e) /\ r_standard_error r' = r_standard_error r /\
    r_df r' = r_df r /\ r_sample_size r' = r_sample_size r.
Proof.
  intros HS U L1 L2 L3 M. assert (U' : usable (List.length xs') q) by now rewrite L2.
  destruct (paired_runs T argsort xs ys q "two-sided" default_alpha HS U (eq_sym L1) ltac:(now left)) as (r & H).
  destruct (paired_runs T argsort xs' ys' q "two-sided" default_alpha HS U' ltac:(congruence) ltac:(now left)) as (r' & H').
  destruct (sorted_exists (minus xs ys)) as (sd & Sd). assert (Sd' := sorted_as_shift _ _ e Sd). rewrite <- M in Sd'.
  destruct (paired_key T argsort xs ys q _ _ r sd HS (usable_sample _ _ U) Sd H) as (_ & k & Ek & K2 & A1 & A2 & A3 & A4 & _).
  destruct (paired_key T argsort xs' ys' q _ _ r' _ HS (usable_sample _ _ U') Sd' H') as (_ & k' & Ek' & K2' & B1 & B2 & B3 & B4 & _).
  rewrite L2 in *. assert (k' = k) by lia. subst k'.
  destruct (shifted_moments (minus xs ys) sd e k Sd) as [S1 S2]. { rewrite minus_length by congruence. auto. }
  rewrite M, S2 in B2. rewrite S1 in B1.
  exists r, r', (tmean k sd). rewrite A2, A3, A4. auto 10.
Qed.

(** a trimmed crossover analysis finds the effect, and its standard error and degrees of freedom do not change *)
Theorem c63_recovered_exactly_without_demeaning :
  forall T argsort t t' p m e l override, let q := chosen p override in
    sorts argsort -> NoDup (t_cols t) -> crossover p = true -> usable (List.length l) q -> B2R q <> 0 ->
    crossover_items arm t m (map finite l) ->
    apply_synthetic_treatment_effect arm t true p m (Fin e) = Ok t' ->
    exists r r' d,
      analyze_single_metric T argsort arm t true p m None override = Ok r /\
      analyze_single_metric T argsort arm t' true p m None override = Ok r' /\
      r_abs r = Fin d /\ r_abs r' = Fin (d + e) /\
      r_standard_error r' = r_standard_error r /\ r_df r' = r_df r /\ r_sample_size r' = r_sample_size r.
Proof.
  intros T argsort t t' p m e l override q HS ND C U Q IT HE.
  destruct (c70_effect_in_a_crossover arm t t' p m _ _ ND C IT HE) as (CC & _ & IT' & _).
  assert (ND' : NoDup (t_cols t')) by now rewrite CC.
  assert (Z : is_zero q = false). { destruct (is_zero q) eqn:E; auto. apply is_zero_iff in E; [contradiction|apply U]. }
  rewrite (analysis_crossover arm T argsort t p m _ override ND C IT).
  rewrite (analysis_crossover arm T argsort t' p m _ override ND' C IT').
  cbv zeta. fold q. rewrite Z, !c62_pairs_raw_values, affected_finite, !treated_finite, !control_finite. cbn [fst snd].
  apply paired_shift; rewrite ?map_length; auto.
  rewrite !minus_map, !map_map. apply map_ext. intros c. unfold while_treated, while_control, affected.
  destruct (in_treatment_arm (x_arm c)) eqn:E; cbn [x_arm x_one x_two]; rewrite E; ring.
Qed.

Lemma share_avg l : share_first l = avg (map (fun c => if in_treatment_arm (x_arm c) then 1 else 0) l).
Proof.
  unfold share_first, avg. rewrite map_length. f_equal.
  induction l as [|c l IH]; simpl; auto. destruct (in_treatment_arm (x_arm c)); [|rewrite IH; lra].
  cbn [List.length]. rewrite S_INR, IH. lra.
Qed.

(** an untrimmed one finds the share 4 f (1 - f) of it *)
Theorem c63_recovered_share_with_demeaning :
  forall T argsort t t' p m e l override, let q := chosen p override in
    sorts argsort -> NoDup (t_cols t) -> crossover p = true -> usable (List.length l) q -> B2R q = 0 ->
    crossover_items arm t m (map finite l) ->
    apply_synthetic_treatment_effect arm t true p m (Fin e) = Ok t' ->
    exists r r' d, let f := share_first l in
      analyze_single_metric T argsort arm t true p m None override = Ok r /\
      analyze_single_metric T argsort arm t' true p m None override = Ok r' /\
      r_abs r = Fin d /\ r_abs r' = Fin (d + 4 * f * (1 - f) * e) /\
      r_df r' = r_df r /\ r_sample_size r' = r_sample_size r /\
      (f = 1 / 2 -> r_standard_error r' = r_standard_error r) /\
      (r_abs r' = Fin (d + e) <-> f = 1 / 2 \/ e = 0).
Proof.
  intros T argsort t t' p m e l override q HS ND C U Q IT HE.
  destruct (c70_effect_in_a_crossover arm t t' p m _ _ ND C IT HE) as (CC & _ & IT' & _).
  assert (ND' : NoDup (t_cols t')) by now rewrite CC.
  assert (Z : is_zero q = true) by (apply is_zero_iff; auto; apply U).
  rewrite (analysis_crossover arm T argsort t p m _ override ND C IT).
  rewrite (analysis_crossover arm T argsort t' p m _ override ND' C IT').
  cbv zeta. fold q. rewrite Z, affected_finite. set (l' := map (affected (fun x => x + e)) l).
  assert (N : l <> []) by (destruct U; destruct l; simpl in *; [lia|discriminate]).
  assert (N' : l' <> []) by (intros E; now apply map_eq_nil in E).
  assert (LL : List.length l' = List.length l) by apply map_length.
  destruct (c62_demeaned l N) as (tr & co & -> & T1 & T2 & _ & M).
  destruct (c62_demeaned l' N') as (tr' & co' & -> & T1' & T2' & _ & M'). rewrite LL in T1', T2'. cbn [fst snd].
  assert (Ut : usable (List.length tr) q) by now rewrite T1. assert (Ut' : usable (List.length tr') q) by now rewrite T1'.
  destruct (paired_runs T argsort tr co q "two-sided" default_alpha HS Ut ltac:(congruence) ltac:(now left)) as (r & H).
  destruct (paired_runs T argsort tr' co' q "two-sided" default_alpha HS Ut' ltac:(congruence) ltac:(now left)) as (r' & H').
  set (f := share_first l).
  assert (A1 : avg (ones l') = avg (ones l) + f * e).
  { unfold f. rewrite share_avg. unfold ones, l'. rewrite map_map.
    transitivity (Av l (fun c => 1 * x_one c + e * (if in_treatment_arm (x_arm c) then 1 else 0))).
    { unfold Av. f_equal. apply map_ext. intros c. unfold affected. destruct (in_treatment_arm (x_arm c)); cbn [x_one]; ring. }
    rewrite Av_lin by auto. unfold Av. ring. }
  assert (A2 : avg (twos l') = avg (twos l) + (1 - f) * e).
  { unfold f. rewrite share_avg. unfold twos, l'. rewrite map_map.
    transitivity (Av l (fun c => 1 * (x_two c + e) + - e * (if in_treatment_arm (x_arm c) then 1 else 0))).
    { unfold Av. f_equal. apply map_ext. intros c. unfold affected. destruct (in_treatment_arm (x_arm c)); cbn [x_two]; ring. }
    rewrite Av_lin, Av_plus, Av_const by auto. unfold Av. ring. }
  assert (MM : minus tr' co' = map (fun c => signed c ((x_one c - avg (ones l)) - (x_two c - avg (twos l))) +
      2 * e * (if in_treatment_arm (x_arm c) then 1 - f else f)) l).
  { rewrite M', A1, A2. unfold l'. rewrite map_map. apply map_ext. intros c. unfold signed, affected.
    destruct (in_treatment_arm (x_arm c)) eqn:E; cbn [x_arm x_one x_two]; rewrite E; ring. }
  assert (AV : avg (minus tr' co') = avg (minus tr co) + 4 * f * (1 - f) * e).
  { rewrite MM, M. set (g := fun c => signed c _).
    transitivity (Av l (fun c => (g c + 2 * e * f) + (2 * e * (1 - 2 * f)) * (if in_treatment_arm (x_arm c) then 1 else 0))).
    { unfold Av. f_equal. apply map_ext. intros c. change (signed c _) with (g c). destruct (in_treatment_arm (x_arm c)); ring. }
    rewrite Av_plus, Av_scale, Av_plus, Av_const by auto. unfold Av at 2. rewrite <- share_avg. fold f. unfold Av. ring. }
  destruct (sorted_exists (minus tr co)) as (sd & Sd). destruct (sorted_exists (minus tr' co')) as (sd' & Sd').
  destruct (paired_key T argsort tr co q _ _ r sd HS (usable_sample _ _ Ut) Sd H) as (_ & k & Ek & K2 & B1 & B2 & B3 & B4 & _).
  destruct (paired_key T argsort tr' co' q _ _ r' sd' HS (usable_sample _ _ Ut') Sd' H') as (_ & k' & Ek' & K2' & B1' & B2' & B3' & B4' & _).
  assert (TZ : forall n, trim_each n q = 0%Z) by (intros n; unfold trim_each; rewrite Q, Rmult_0_l, rnd_0; apply (Zfloor_IZR 0)).
  rewrite TZ in Ek, Ek'. assert (k = 0%nat) by lia. assert (k' = 0%nat) by lia. subst k k'.
  rewrite (tmean_0 _ _ Sd) in B1. rewrite (tmean_0 _ _ Sd'), AV in B1'. rewrite T1 in *. rewrite T1' in *.
  exists r, r', (avg (minus tr co)). rewrite B1, B1', B3, B3', B4, B4'. do 6 (split; auto). split.
  - intros F. rewrite B2, B2', (tdev_0 _ _ Sd), (tdev_0 _ _ Sd').
    replace (minus tr' co') with (map (fun x => 1 * x + e) (minus tr co)); [|rewrite MM, M, map_map; apply map_ext; intros c; rewrite F; destruct (in_treatment_arm (x_arm c)); lra].
    rewrite sqdev_affine; [do 4 f_equal; ring|]. rewrite M. intros E. now apply map_eq_nil in E.
  - split.
    + intros E. assert (X : avg (minus tr co) + 4 * f * (1 - f) * e = avg (minus tr co) + e) by congruence.
      assert (Y : e * ((2 * f - 1) * (2 * f - 1)) = 0) by lra. apply Rmult_integral in Y as [Y|Y]; auto.
      left. apply Rmult_integral in Y as [Y|Y]; lra.
    + intros [-> | ->]; f_equal; lra.
Qed.

(** *** C64 *)
Definition finite_pair (x : option Z * R) : option Z * num := (fst x, Fin (snd x)).

Lemma values_finite a l : values_of_arm a (map finite_pair l) = data (values_of_arm a l).
Proof.
  unfold values_of_arm, data. induction l as [|[o v] l IH]; simpl; auto. destruct o as [z|]; [destruct (Z.eqb z a)|]; simpl; now rewrite ?IH.
Qed.
Lemma values_cons {V} a (x : option Z * V) l :
  values_of_arm a (x :: l) = (if match fst x with Some z => Z.eqb z a | None => false end then [snd x] else []) ++ values_of_arm a l.
Proof. unfold values_of_arm. cbn [filter]. now destruct (match fst x with Some z => Z.eqb z a | None => false end). Qed.
Lemma values_affected_1 (f : R -> R) l : values_of_arm 1 (map (affected_regular f) l) = map f (values_of_arm 1 l).
Proof.
  induction l as [|[o v] l IH]; auto. cbn [map]. rewrite !values_cons, map_app, IH. f_equal.
  unfold affected_regular. destruct o as [[|[q|q|]|q]|]; reflexivity.
Qed.
Lemma values_affected_0 (f : R -> R) l : values_of_arm 0 (map (affected_regular f) l) = values_of_arm 0 l.
Proof.
  induction l as [|[o v] l IH]; auto. cbn [map]. rewrite !values_cons, IH. f_equal.
  unfold affected_regular. destruct o as [[|[q|q|]|q]|]; reflexivity.
Qed.
Lemma affected_finite_regular e l :
  map (affected_regular (fun x => nadd x (Fin e))) (map finite_pair l) = map finite_pair (map (affected_regular (fun x => x + e)) l).
Proof.
  rewrite !map_map. apply map_ext. intros [o v]. unfold affected_regular, finite_pair. cbn [fst snd]. now destruct (in_treatment_arm o).
Qed.

(** adding a constant to the first of two independent samples *)
Lemma ind_shift T argsort xs ys q ev alternative alpha e r r' : sorts argsort -> sample xs -> sample ys ->
  yuens_t_test_ind T argsort (data xs) (data ys) q None None ev alternative alpha = Ok r ->
  yuens_t_test_ind T argsort (data (map (fun x => x + e) xs)) (data ys) q None None ev alternative alpha = Ok r' ->
  exists d, r_abs r = Fin d /\ r_abs r' = Fin (d + e) /\ r_standard_error r' = r_standard_error r /\
    r_df r' = r_df r /\ r_sample_size r' = r_sample_size r /\ r_control_average r' = r_control_average r.
Proof.
  intros HS Sx Sy H H'. set (xs' := map (fun x => x + e) xs) in *.
  assert (L' : List.length xs' = List.length xs) by apply map_length.
  assert (Sx' : sample xs'). { destruct Sx as [N B]. split; [intros E; now apply map_eq_nil in E|now rewrite L']. }
  unfold yuens_t_test_ind in H, H'. cbn [ratio_arguments bind] in H, H'.
  apply bind_ok in H as (t1 & E1 & H). apply bind_ok in H as (t2 & E2 & H).
  apply bind_ok in H' as (t1' & E1' & H'). apply bind_ok in H' as (t2' & E2' & H').
  assert (t2' = t2) by congruence. subst t2'.
  destruct (sorted_exists xs) as (s & Ss). assert (Ss' := sorted_as_shift _ _ e Ss). fold xs' in Ss'.
  destruct (sorted_exists ys) as (sy & Ssy).
  destruct (one_sample_moments argsort xs s q t1 HS Sx Ss E1) as (K1 & KK & M1 & L1 & V1).
  destruct (one_sample_moments argsort xs' _ q t1' HS Sx' Ss' E1') as (K1' & _ & M1' & L1' & V1').
  destruct (one_sample_moments argsort ys sy q t2 HS Sy Ssy E2) as (_ & _ & M2 & _ & _).
  rewrite L' in *. assert (KE : t_k t1' = t_k t1) by lia. rewrite KE in *.
  destruct (shifted_moments xs s e (t_k t1) Ss KK) as [S1 S2]. fold xs' in S2.
  rewrite S1 in M1'. rewrite S2 in V1'. rewrite M1, V1, L1, M2 in H. rewrite M1', V1', L1', M2 in H'.
  apply finish_ind_ok in H as (se & e1 & e2 & ES & F). apply finish_ind_ok in H' as (se' & e1' & e2' & ES' & F').
  rewrite ES in ES'. assert (se' = se) by congruence. subst se'.
  destruct F, F'. eexists. split; [rewrite fi_abs; apply nsub_fin|].
  split; [rewrite fi_abs0, nsub_fin; f_equal; ring|]. repeat split; congruence.
Qed.

Theorem c64_recovered_exactly_without_pretest :
  forall T argsort t t' p m e l override r r',
    sorts argsort -> NoDup (t_cols t) -> crossover p = false -> pretest p = 0%Z -> ~ In (m, "pretest") (t_cols t) ->
    (Z.of_nat (List.length l) <= 2 ^ 53)%Z -> regular_items arm t m (map finite_pair l) ->
    apply_synthetic_treatment_effect arm t true p m (Fin e) = Ok t' ->
    analyze_single_metric T argsort arm t true p m None override = Ok r ->
    analyze_single_metric T argsort arm t' true p m None override = Ok r' ->
    exists d, r_abs r = Fin d /\ r_abs r' = Fin (d + e) /\ r_standard_error r' = r_standard_error r /\
      r_df r' = r_df r /\ r_sample_size r' = r_sample_size r /\ r_control_average r' = r_control_average r.
Proof.
  intros T argsort t t' p m e l override r r' HS ND C PT NP B IT HE H H'.
  destruct (c70_effect_in_a_regular_experiment arm t t' p m _ _ ND C IT HE) as (CC & _ & IT' & _).
  assert (ND' : NoDup (t_cols t')) by now rewrite CC. assert (NP' : ~ In (m, "pretest") (t_cols t')) by now rewrite CC.
  rewrite (analysis_regular arm T argsort t p m _ override ND C PT NP IT) in H.
  rewrite (analysis_regular arm T argsort t' p m _ override ND' C PT NP' IT') in H'.
  rewrite affected_finite_regular in H'. rewrite !values_finite in H, H'. rewrite values_affected_1, values_affected_0 in H'.
  assert (LE : forall a, (List.length (values_of_arm a l) <= List.length l)%nat).
  { intros a. unfold values_of_arm. rewrite map_length. apply Rank.filter_length_le. }
  assert (S0 : forall a, values_of_arm a l <> [] -> sample (values_of_arm a l)) by (intros a X; split; auto; specialize (LE a); lia).
  assert (EMP : forall t0, mk_trimmed argsort [data []] (chosen p override) = Ok t0 -> False).
  { intros t0. unfold mk_trimmed. intros X. apply bind_ok in X as (u & _ & X). apply bind_ok in X as (kz & _ & X).
    cbn [data map] in X. apply bind_ok in X as (u' & _ & X). discriminate X. }
  assert (V1 : values_of_arm 1 l <> []). { intros X. rewrite X in H. unfold yuens_t_test_ind in H. cbn [ratio_arguments bind] in H. apply bind_ok in H as (t1 & E1 & _). eauto. }
  assert (V0 : values_of_arm 0 l <> []). { intros X. rewrite X in H. unfold yuens_t_test_ind in H. cbn [ratio_arguments bind] in H. apply bind_ok in H as (t1 & _ & H). apply bind_ok in H as (t2 & E2 & _). eauto. }
  exact (ind_shift _ _ _ _ _ _ _ _ e r r' HS (S0 1%Z V1) (S0 0%Z V0) H H').
Qed.

(** *** C64 with a pretest period: CUPED removes the part of the effect that the pretest values predict *)

(** an item: its arm, its value before and its value during the test *)
Record item := mkI { i_arm : option Z; i_pre : R; i_test : R }.
Definition in_arm (a : Z) (l : list item) : list item :=
  filter (fun x => match i_arm x with Some z => Z.eqb z a | None => false end) l.
Definition indicator (x : item) : R := if in_treatment_arm (i_arm x) then 1 else 0.
Definition pretest_items (t : table K) (m : string) (l : list item) : Prop :=
  in_arms arm t (map i_arm l) /\ holds t (m, "pretest") (data (map i_pre l)) /\ holds t (m, "test") (data (map i_test l)).
Definition with_effect (e : R) (x : item) : item :=
  if in_treatment_arm (i_arm x) then mkI (i_arm x) (i_pre x) (i_test x + e) else x.

Lemma cuped_untrimmed argsort m c q n : sorts argsort -> usable n q -> trim_each n q = 0%Z ->
  List.length m = n -> List.length c = n -> (2 <= n)%nat -> sqdev c <> 0 ->
  apply_cuped_adjustment argsort (data m) (data c) q = Ok (data (adjusted m c)).
Proof.
  intros HS HU HT Lm Lc H2 HC. assert (CC : codev c c <> 0) by (now rewrite codev_self).
  unfold data, apply_cuped_adjustment. rewrite !map_length, Lm, Lc, Nat.eqb_refl. cbn [negb raise_if bind].
  rewrite first_adjustment by (try congruence; lia).
  destruct (mk_trimmed_usable argsort [map Fin (adjusted m c); map Fin m; map Fin c] q n) as (t & Ht & _ & EK & _); auto.
  { discriminate. }
  { intros r [<-|[<-|[<-|[]]]]; rewrite map_length; auto. unfold adjusted. rewrite zip_length; congruence. }
  rewrite Ht. cbn [bind]. rewrite HT in EK. replace (t_k t) with 0%nat by lia. reflexivity.
Qed.

Lemma select_map a (g : item -> num) l : select (map (arm_is a) (map i_arm l)) (map g l) = map g (in_arm a l).
Proof.
  unfold select, in_arm. rewrite map_map. induction l as [|x l IH]; simpl; auto.
  unfold arm_is at 1. destruct (i_arm x) as [z|]; simpl; [destruct (Z.eqb z a)|]; simpl; rewrite ?IH; auto.
Qed.

Lemma analysis_with_pretest T argsort t p m l override : sorts argsort -> NoDup (t_cols t) -> crossover p = false ->
  let q := chosen p override in usable (List.length l) q -> B2R q = 0 -> sqdev (map i_pre l) <> 0 -> pretest_items t m l ->
  let theta := codev (map i_test l) (map i_pre l) / sqdev (map i_pre l) in
  let y := fun x => i_test x - theta * (i_pre x - avg (map i_pre l)) in
  analyze_single_metric T argsort arm t true p m None override =
  yuens_t_test_ind T argsort (data (map y (in_arm 1 l))) (data (map y (in_arm 0 l))) q None None false "two-sided" default_alpha.
Proof.
  intros HS ND C q U Q SQ (IA & HP & HT) theta y. unfold analyze_single_metric.
  destruct (metric_subset_spec arm t m _ _ ND HP) as (s & -> & EA & G & N). cbn [bind].
  assert (RP : complete p s = true).
  { unfold complete, required_periods. rewrite C, EA. destruct (0 <? pretest p)%Z; cbn [forallb]; now rewrite (G _ _ HT), ?(G _ _ HP). }
  rewrite RP, C. cbn [andb negb raise_if bind].
  unfold analyze_regular, prepare_regular, period_values, arm_values. rewrite (G _ _ HT), (G _ _ HP), EA.
  assert (TZ : trim_each (List.length l) q = 0%Z) by (unfold trim_each; rewrite Q, Rmult_0_l, rnd_0; apply (Zfloor_IZR 0)).
  assert (N2 : (2 <= List.length l)%nat).
  { destruct l as [|x [|x' l']]; simpl; try lia; exfalso; apply SQ; unfold sqdev, avg; simpl; field. }
  replace (match override with None => post p | Some q0 => q0 end) with q by (unfold q, chosen; now destruct override).
  rewrite (cuped_untrimmed argsort _ _ q (List.length l)) by (rewrite ?map_length; auto). cbn [bind fst snd].
  assert (EY : adjusted (map i_test l) (map i_pre l) = map y l).
  { unfold adjusted. rewrite zip_with_map, codev_self. reflexivity. }
  assert (DY : data (map y l) = map (fun x => Fin (y x)) l) by (unfold data; apply map_map).
  rewrite EY, IA, DY, !select_map. unfold data. rewrite !map_map. reflexivity.
Qed.

(** a sum over two arms *)
Lemma two_arms (g : item -> R) l : (forall x, In x l -> i_arm x = Some 0%Z \/ i_arm x = Some 1%Z) ->
  total (map g l) = total (map g (in_arm 1 l)) + total (map g (in_arm 0 l)).
Proof.
  induction l as [|x l IH]; intros H; [simpl; ring|]. specialize (IH (fun y Hy => H y (or_intror Hy))).
  unfold in_arm in *. cbn [filter]. destruct (H x (or_introl eq_refl)) as [E|E]; rewrite E; cbn [Z.eqb Pos.eqb map total fold_right];
    unfold total in *; lra.
Qed.
Lemma in_arm_1 l x : In x (in_arm 1 l) -> in_treatment_arm (i_arm x) = true.
Proof. unfold in_arm. rewrite filter_In. intros [_ E]. destruct (i_arm x) as [z|]; [|discriminate]. apply Z.eqb_eq in E. now subst. Qed.
Lemma in_arm_0 l x : In x (in_arm 0 l) -> in_treatment_arm (i_arm x) = false.
Proof. unfold in_arm. rewrite filter_In. intros [_ E]. destruct (i_arm x) as [z|]; [|discriminate]. apply Z.eqb_eq in E. now subst. Qed.
Lemma effect_arm e a l : in_arm a (map (with_effect e) l) = map (with_effect e) (in_arm a l).
Proof.
  unfold in_arm. induction l as [|x l IH]; auto. cbn [map filter].
  replace (i_arm (with_effect e x)) with (i_arm x) by (unfold with_effect; now destruct (in_treatment_arm (i_arm x))).
  destruct (i_arm x) as [z|]; [destruct (Z.eqb z a)|]; cbn [map]; now rewrite IH.
Qed.

Theorem c64_share_recovered_with_pretest :
  forall T argsort t t' p m e l override r r', let q := chosen p override in
    sorts argsort -> NoDup (t_cols t) -> crossover p = false ->
    usable (List.length l) q -> B2R q = 0 -> sqdev (map i_pre l) <> 0 ->
    (forall x, In x l -> i_arm x = Some 0%Z \/ i_arm x = Some 1%Z) ->
    pretest_items t m l ->
    apply_synthetic_treatment_effect arm t true p m (Fin e) = Ok t' ->
    analyze_single_metric T argsort arm t true p m None override = Ok r ->
    analyze_single_metric T argsort arm t' true p m None override = Ok r' ->
    let corr := codev (map indicator l) (map i_pre l) / sqrt (sqdev (map indicator l) * sqdev (map i_pre l)) in
    exists d, r_abs r = Fin d /\ r_abs r' = Fin (d + e * (1 - corr ^ 2)) /\ 0 <= corr ^ 2 <= 1 /\
      (r_abs r' = Fin (d + e) <-> e = 0 \/ avg (map i_pre (in_arm 1 l)) = avg (map i_pre (in_arm 0 l))).
Proof.
  intros T argsort t t' p m e l override r r' q HS ND C U Q SQ AR IT HE H H' corr.
  destruct IT as (IA & HP & HT).
  destruct (c70_effect_in_a_regular_experiment arm t t' p m (Fin e) (map (fun x => (i_arm x, Fin (i_test x))) l) ND C) as (CC & _ & [IA' HT'] & OT); auto.
  { split; rewrite map_map; cbn [fst snd]; auto. unfold data in HT. now rewrite map_map in HT. }
  assert (HP' := OT _ _ HP ltac:(congruence)). clear OT.
  assert (ND' : NoDup (t_cols t')) by now rewrite CC.
  set (l' := map (with_effect e) l).
  assert (EP : map i_pre l' = map i_pre l).
  { unfold l'. rewrite map_map. apply map_ext. intros x. unfold with_effect. now destruct (in_treatment_arm (i_arm x)). }
  assert (ET : map i_test l' = map (fun x => i_test x + e * indicator x) l).
  { unfold l'. rewrite map_map. apply map_ext. intros x. unfold with_effect, indicator. destruct (in_treatment_arm (i_arm x)); cbn [i_test]; ring. }
  assert (LL : List.length l' = List.length l) by apply map_length.
  assert (IT' : pretest_items t' m l').
  { split; [|split].
    - unfold in_arms in *. rewrite IA', map_map. unfold l'. rewrite !map_map. apply map_ext. intros x.
      unfold affected_regular, with_effect. cbn [fst]. now destruct (in_treatment_arm (i_arm x)).
    - now rewrite EP.
    - refine (eq_ind _ (holds _ _) HT' _ _). unfold data, l'. rewrite !map_map. apply map_ext. intros x.
      unfold affected_regular, with_effect. cbn [fst snd]. now destruct (in_treatment_arm (i_arm x)). }
  assert (U' : usable (List.length l') q) by now rewrite LL.
  rewrite (analysis_with_pretest T argsort t p m l override HS ND C U Q SQ) in H by (split; auto).
  assert (SQ' : sqdev (map i_pre l') <> 0) by now rewrite EP.
  rewrite (analysis_with_pretest T argsort t' p m l' override HS ND' C U' Q SQ' IT') in H'.
  rewrite EP in H'. fold q in H, H'.
  set (th := codev (map i_test l) (map i_pre l) / sqdev (map i_pre l)) in *.
  set (th' := codev (map i_test l') (map i_pre l) / sqdev (map i_pre l)) in *.
  set (xb := avg (map i_pre l)) in *.
  set (a1 := in_arm 1 l) in *. set (a0 := in_arm 0 l) in *.
  assert (N : l <> []) by (destruct U; destruct l; simpl in *; [lia|discriminate]).
  (* neither arm is empty *)
  assert (EMP : forall t0, mk_trimmed argsort [data []] q = Ok t0 -> False).
  { intros t0. unfold mk_trimmed. intros X. apply bind_ok in X as (u & _ & X). apply bind_ok in X as (kz & _ & X).
    cbn [data map] in X. apply bind_ok in X as (u' & _ & X). discriminate X. }
  assert (V1 : a1 <> []). { intros X. rewrite X in H. unfold yuens_t_test_ind in H. cbn [ratio_arguments bind map] in H. apply bind_ok in H as (t1 & E1 & _). eauto. }
  assert (V0 : a0 <> []). { intros X. rewrite X in H. unfold yuens_t_test_ind in H. cbn [ratio_arguments bind map] in H. apply bind_ok in H as (t1 & _ & H). apply bind_ok in H as (t2 & E2 & _). eauto. }
  assert (TZ : forall n, trim_each n q = 0%Z) by (intros n; unfold trim_each; rewrite Q, Rmult_0_l, rnd_0; apply (Zfloor_IZR 0)).
  assert (LE : forall a, (Z.of_nat (List.length (in_arm a l)) <= 2 ^ 53)%Z).
  { intros a. destruct U as (_ & B & _). assert (X := Rank.filter_length_le (fun x => match i_arm x with Some z => Z.eqb z a | None => false end) l).
    unfold in_arm. lia. }
  assert (SA : forall (g : item -> R) a, in_arm a l <> [] -> sample (map g (in_arm a l))).
  { intros g a X. split; [intros E; now apply map_eq_nil in E|]. rewrite map_length. apply LE. }
  assert (DIFF : forall g g0 rr, yuens_t_test_ind T argsort (data (map g a1)) (data (map g0 a0)) q None None false "two-sided" default_alpha = Ok rr ->
    r_abs rr = Fin (avg (map g a1) - avg (map g0 a0))).
  { intros g g0 rr X. destruct (sorted_exists (map g a1)) as (s1 & S1). destruct (sorted_exists (map g0 a0)) as (s0 & S0).
    destruct (c51_what_the_test_computes T argsort _ _ q _ _ _ rr s1 s0 HS (SA g 1%Z V1) (SA g0 0%Z V0) S1 S0 X) as (k1 & k2 & E1 & E2 & _ & _ & E & _).
    rewrite TZ in E1, E2. assert (k1 = 0%nat) by lia. assert (k2 = 0%nat) by lia. subst k1 k2.
    rewrite (tmean_0 _ _ S1), (tmean_0 _ _ S0) in E. exact E. }
  assert (D := DIFF _ _ _ H).
  unfold l' in H' at 1 2. rewrite !effect_arm, !map_map in H'. fold a1 a0 in H'. assert (D' := DIFF _ _ _ H'). clear DIFF.
  set (f := fun x => i_test x - th * (i_pre x - xb)) in *.
  assert (G : forall a (g h : item -> R), (forall x, In x a -> g x = h x) -> avg (map g a) = avg (map h a)).
  { intros a g h X. f_equal. now apply map_ext_in. }
  rewrite (G a1 _ (fun x => 1 * f x + (e + (th - th') * (i_pre x - xb)))) in D'.
  2:{ intros x Hx. apply in_arm_1 in Hx. unfold with_effect. rewrite Hx. cbn [i_test i_pre]. unfold f. ring. }
  rewrite (G a0 _ (fun x => 1 * f x + (th - th') * (i_pre x - xb))) in D'.
  2:{ intros x Hx. apply in_arm_0 in Hx. unfold with_effect. rewrite Hx. unfold f. ring. }
  set (X1 := avg (map i_pre a1)) in *. set (X0 := avg (map i_pre a0)) in *.
  assert (Q1 : avg (map (fun x => 1 * f x + (e + (th - th') * (i_pre x - xb))) a1) = avg (map f a1) + e + (th - th') * (X1 - xb)).
  { transitivity (Av a1 (fun x => 1 * f x + (1 * (e - (th - th') * xb) + (th - th') * i_pre x))).
    - unfold Av. f_equal. apply map_ext. intros; ring.
    - rewrite Av_plus, Av_scale, Av_plus, Av_const, Av_scale by auto. unfold Av, X1. ring. }
  assert (Q0 : avg (map (fun x => 1 * f x + (th - th') * (i_pre x - xb)) a0) = avg (map f a0) + (th - th') * (X0 - xb)).
  { transitivity (Av a0 (fun x => 1 * f x + (1 * (- (th - th') * xb) + (th - th') * i_pre x))).
    - unfold Av. f_equal. apply map_ext. intros; ring.
    - rewrite Av_plus, Av_scale, Av_plus, Av_const, Av_scale by auto. unfold Av, X0. ring. }
  rewrite Q1, Q0 in D'. clear Q1 Q0.
  set (ci := codev (map indicator l) (map i_pre l)) in *. set (sx := sqdev (map i_pre l)) in *. set (si := sqdev (map indicator l)) in *.
  assert (TH : th' - th = e * ci / sx).
  { unfold th', th, ci. rewrite ET. change (codev (map (fun x => i_test x + e * indicator x) l) (map i_pre l)) with (Cv l (fun x => i_test x + e * indicator x) i_pre).
    rewrite (Cv_ext l _ (fun x => 1 * i_test x + e * indicator x) i_pre i_pre) by (intros; ring || auto).
    rewrite Cv_lin_l by auto. unfold Cv. field. exact SQ. }
  (* the between-arms identities *)
  set (n1 := INR (List.length a1)). set (n0 := INR (List.length a0)). set (n := INR (List.length l)).
  assert (P1 : 0 < n1) by (apply (n_pos a1 V1)). assert (P0 : 0 < n0) by (apply (n_pos a0 V0)). assert (Pn : 0 < n) by (apply (n_pos l N)).
  assert (ONE : forall (a : list item), total (map (fun _ => 1) a) = INR (List.length a)).
  { intros a. fold (Sm a (fun _ => 1)). rewrite Sm_const. ring. }
  assert (EN : n = n1 + n0). { unfold n, n1, n0. rewrite <- !ONE. apply two_arms; auto. }
  assert (T1 : total (map i_pre a1) = n1 * X1) by (unfold X1, avg; rewrite map_length; fold n1; field; lra).
  assert (T0 : total (map i_pre a0) = n0 * X0) by (unfold X0, avg; rewrite map_length; fold n0; field; lra).
  assert (XB : n * xb = n1 * X1 + n0 * X0).
  { rewrite <- T1, <- T0. unfold a1, a0. rewrite <- two_arms by auto. unfold xb, avg. rewrite map_length. fold n. field. lra. }
  assert (FI : avg (map indicator l) = n1 / n).
  { unfold avg. rewrite map_length. fold n. f_equal. rewrite two_arms by auto. fold a1 a0.
    rewrite (map_ext_in indicator (fun _ => 1) a1) by (intros x Hx; unfold indicator; now rewrite (in_arm_1 l x Hx)).
    rewrite (map_ext_in indicator (fun _ => 0) a0) by (intros x Hx; unfold indicator; now rewrite (in_arm_0 l x Hx)).
    rewrite ONE. fold (Sm a0 (fun _ => 0)). rewrite Sm_const. fold n1. ring. }
  assert (CI : n * ci = n1 * n0 * (X1 - X0)).
  { unfold ci. change (codev (map indicator l) (map i_pre l)) with (Cv l indicator i_pre). rewrite Cv_S. unfold Av at 1. rewrite FI. unfold Av. fold xb.
    unfold Sm. rewrite two_arms by auto. fold a1 a0.
    rewrite (map_ext_in _ (fun x => (1 - n1 / n) * (i_pre x - xb)) a1) by (intros x Hx; unfold indicator; rewrite (in_arm_1 l x Hx); ring).
    rewrite (map_ext_in _ (fun x => (- (n1 / n)) * (i_pre x - xb)) a0) by (intros x Hx; unfold indicator; rewrite (in_arm_0 l x Hx); ring).
    fold (Sm a1 (fun x => (1 - n1 / n) * (i_pre x - xb))). fold (Sm a0 (fun x => (- (n1 / n)) * (i_pre x - xb))).
    rewrite !Sm_scale, !Sm_minus, !Sm_const. fold n1 n0. unfold Sm. rewrite T1, T0.
    replace xb with ((n1 * X1 + n0 * X0) / n) by (rewrite <- XB; field; lra). rewrite EN. field. lra. }
  assert (SI : n * si = n1 * n0).
  { unfold si. rewrite <- (Cv_sqdev l indicator), Cv_S. unfold Av. rewrite FI.
    unfold Sm. rewrite two_arms by auto. fold a1 a0.
    rewrite (map_ext_in _ (fun x => (1 - n1 / n) * (1 - n1 / n)) a1) by (intros x Hx; unfold indicator; rewrite (in_arm_1 l x Hx); ring).
    rewrite (map_ext_in _ (fun x => (n1 / n) * (n1 / n)) a0) by (intros x Hx; unfold indicator; rewrite (in_arm_0 l x Hx); ring).
    fold (Sm a1 (fun _ => (1 - n1 / n) * (1 - n1 / n))). fold (Sm a0 (fun _ => (n1 / n) * (n1 / n))).
    rewrite !Sm_const. fold n1 n0. rewrite EN. field. lra. }
  assert (PX : 0 < sx) by (unfold sx in *; generalize (sqdev_nonneg (map i_pre l)); lra).
  assert (PS : 0 < si) by (apply (Rmult_lt_reg_l n); auto; rewrite SI, Rmult_0_r; nra).
  assert (CX : ci = si * (X1 - X0)). { apply (Rmult_eq_reg_l n); [|lra]. rewrite CI, <- Rmult_assoc, SI. ring. }
  assert (CO : corr ^ 2 = ci * (X1 - X0) / sx).
  { unfold corr. fold ci sx si. unfold Rdiv. rewrite Rpow_mult_distr, pow_inv, pow2_sqrt by nra. rewrite CX. field. lra. }
  assert (LE1 : corr ^ 2 <= 1).
  { rewrite CO. assert (CS := Cv_cauchy l indicator i_pre). rewrite !Cv_sqdev in CS.
    change (Cv l indicator i_pre) with ci in CS. fold si sx in CS. rewrite CX in CS.
    assert (XX : si * (X1 - X0) ^ 2 <= sx). { apply (Rmult_le_reg_l si); auto. eapply Rle_trans; [|exact CS]. right. ring. }
    rewrite CX. apply (Rmult_le_reg_r sx); auto. unfold Rdiv. rewrite Rmult_assoc, Rinv_l, Rmult_1_r by lra. lra. }
  exists (avg (map f a1) - avg (map f a0)).
  assert (FIN : r_abs r' = Fin (avg (map f a1) - avg (map f a0) + e * (1 - corr ^ 2))).
  { rewrite D'. f_equal. replace (th - th') with (- (e * ci / sx)) by lra. rewrite CO. field. lra. }
  split; [exact D|]. split; [exact FIN|]. split; [split; [apply pow2_ge_0|exact LE1]|].
  rewrite FIN. split.
  - intros E. assert (Z : e * (corr ^ 2) = 0) by (assert (E2 : avg (map f a1) - avg (map f a0) + e * (1 - corr ^ 2) = avg (map f a1) - avg (map f a0) + e) by congruence; lra).
    apply Rmult_integral in Z as [Z|Z]; auto. right. rewrite CO, CX in Z. fold X1 X0.
    assert (Z2 : si * ((X1 - X0) * (X1 - X0)) = 0).
    { replace (si * ((X1 - X0) * (X1 - X0))) with (si * (X1 - X0) * (X1 - X0) / sx * sx) by (field; lra). rewrite Z. ring. }
    apply Rmult_integral in Z2 as [Z2|Z2]; [lra|]. apply Rmult_integral in Z2 as [Z2|Z2]; lra.
  - intros [E | E]; f_equal; [rewrite E; ring|]. rewrite CO. fold X1 X0 in E. rewrite E. unfold Rdiv. ring.
Qed.
End Effects.

(** Concrete cases. *)
Lemma usable_design_post p d n : mk_design p = Ok d -> (0 < n)%nat -> (Z.of_nat n <= 2 ^ 53)%Z -> usable n (post p).
Proof.
  intros H H0 HB. apply mk_design_iff in H as [D _]. split; auto. split; auto.
  destruct (ok_finite _ D) as (_ & _ & F). split; auto. apply (ok_post _ D).
Qed.

Example c63_example : exists t' r r' d,
  apply_synthetic_treatment_effect arm_of three_table true ex_params "clicks" (Fin 10) = Ok t' /\
  analyze_single_metric cauchy argsort_ref arm_of three_table true ex_params "clicks" None None = Ok r /\
  analyze_single_metric cauchy argsort_ref arm_of t' true ex_params "clicks" None None = Ok r' /\
  r_abs r = Fin d /\ r_abs r' = Fin (d + 10).
Proof.
  destruct three_table_items as [ND IT]. eexists.
  assert (U : usable (List.length three_items) (chosen ex_params None))
    by (apply (usable_design_post ex_params ex_design); [exact c01_accepts|simpl; lia|vm_compute; discriminate]).
  assert (Q : B2R (chosen ex_params None) <> 0).
  { intros Q. apply is_zero_iff in Q; [|apply U]. revert Q. assert (E : is_zero (chosen ex_params None) = false) by (vm_compute; reflexivity).
    rewrite E. discriminate. }
  edestruct (c63_recovered_exactly_without_demeaning arm_of cauchy argsort_ref three_table _ ex_params "clicks" 10 three_items None
    argsort_ref_sorts ND eq_refl U Q IT eq_refl) as (r & r' & d & H1 & H2 & H3 & H4 & _).
  exists r, r', d. split; [reflexivity|]. auto.
Qed.

(** one of three items is treated first: 8/9 of the effect are found *)
Example c63_example_demeaned : exists t' r r' d,
  apply_synthetic_treatment_effect arm_of three_table true ex_params "clicks" (Fin 9) = Ok t' /\
  analyze_single_metric cauchy argsort_ref arm_of three_table true ex_params "clicks" None (Some f0) = Ok r /\
  analyze_single_metric cauchy argsort_ref arm_of t' true ex_params "clicks" None (Some f0) = Ok r' /\
  r_abs r = Fin d /\ r_abs r' = Fin (d + 8).
Proof.
  destruct three_table_items as [ND IT]. eexists.
  assert (U : usable (List.length three_items) (chosen ex_params (Some f0))) by (apply usable_0; [simpl; lia|vm_compute; discriminate]).
  edestruct (c63_recovered_share_with_demeaning arm_of cauchy argsort_ref three_table _ ex_params "clicks" 9 three_items (Some f0)
    argsort_ref_sorts ND eq_refl U (proj2 f0_val) IT eq_refl) as (r & r' & d & H1 & H2 & H3 & H4 & _).
  exists r, r', d. split; [reflexivity|]. split; auto. split; auto. split; auto. rewrite H4. f_equal.
  unfold share_first, three_items. simpl. field.
Qed.

Lemma positive_runs xs ys : usable (List.length xs) f0 -> usable (List.length ys) f0 -> 0 <= avg xs -> 0 < avg ys ->
  exists r, yuens_t_test_ind cauchy argsort_ref (data xs) (data ys) f0 None None false "two-sided" default_alpha = Ok r.
Proof.
  intros U1 U2 P1 P2. destruct (sorted_exists xs) as (sx & S1). destruct (sorted_exists ys) as (sy & S2).
  destruct (c59_relative_difference_independent cauchy argsort_ref xs ys f0 false "two-sided" default_alpha sx sy
    argsort_ref_sorts U1 U2 S1 S2 ltac:(now left)) as (_ & H & _).
  destruct (usable_0 (List.length xs)) as [_ Z1]; [apply U1|apply U1|]. destruct (usable_0 (List.length ys)) as [_ Z2]; [apply U2|apply U2|].
  rewrite Z1, Z2 in H. change (Z.to_nat 0) with 0%nat in H. rewrite (tmean_0 _ _ S1), (tmean_0 _ _ S2) in H.
  destruct (H P1 P2) as (r & _ & _ & E & _). eauto.
Qed.

Example c64_example : exists t' r r' d,
  apply_synthetic_treatment_effect arm_of plain_table true plain_design "clicks" (Fin 10) = Ok t' /\
  analyze_single_metric cauchy argsort_ref arm_of plain_table true plain_design "clicks" None None = Ok r /\
  analyze_single_metric cauchy argsort_ref arm_of t' true plain_design "clicks" None None = Ok r' /\
  r_abs r = Fin d /\ r_abs r' = Fin (d + 10).
Proof.
  destruct c64_example_effect as (ND & IT & _).
  set (l := [(Some 1%Z, 7); (Some 0%Z, 1); (Some 0%Z, 9); (Some 1%Z, 13)]).
  destruct (apply_synthetic_treatment_effect arm_of plain_table true plain_design "clicks" (Fin 10)) as [t'|e] eqn:HE; [|discriminate].
  assert (U2 : usable 2 f0) by (apply usable_0; [lia|vm_compute; discriminate]).
  destruct (positive_runs [7; 13] [1; 9] U2 U2) as (r & Hr); [unfold avg; simpl; lra|unfold avg; simpl; lra|].
  destruct (positive_runs [7 + 10; 13 + 10] [1; 9] U2 U2) as (r' & Hr'); [unfold avg; simpl; lra|unfold avg; simpl; lra|].
  assert (NP : ~ In ("clicks", "pretest") (t_cols plain_table)) by (simpl; intuition discriminate).
  assert (H : analyze_single_metric cauchy argsort_ref arm_of plain_table true plain_design "clicks" None None = Ok r).
  { now rewrite (analysis_regular arm_of cauchy argsort_ref plain_table plain_design "clicks" _ None ND eq_refl eq_refl NP IT). }
  destruct (c70_effect_in_a_regular_experiment arm_of plain_table t' plain_design "clicks" (Fin 10) _ ND eq_refl IT HE) as (EC & _ & IT' & _).
  assert (H' : analyze_single_metric cauchy argsort_ref arm_of t' true plain_design "clicks" None None = Ok r').
  { rewrite (analysis_regular arm_of cauchy argsort_ref t' plain_design "clicks" (map (affected_regular (fun x : num => nadd x (Fin 10)))
       [(Some 1%Z, Fin 7); (Some 0%Z, Fin 1); (Some 0%Z, Fin 9); (Some 1%Z, Fin 13)]) None); auto; now rewrite EC. }
  destruct (c64_recovered_exactly_without_pretest arm_of cauchy argsort_ref plain_table t' plain_design "clicks" 10 l None r r'
    argsort_ref_sorts ND eq_refl eq_refl NP ltac:(vm_compute; discriminate) IT HE H H') as (d & H1 & H2 & _).
  exists t', r, r', d. auto.
Qed.

Definition pretest_design : params :=
  mkParams 1000 2 "clicks" 1 false f0 f0 f0 None (flit 5 100) (flit 8 10) None.
Definition pretest_table (e : R) : table (string * Z) :=
  mkT [("clicks", "pretest"); ("clicks", "test")]
      [(("a", 1%Z), [Fin 1; Fin (7 + e)]); (("b", 0%Z), [Fin 2; Fin 1]); (("c", 0%Z), [Fin 3; Fin 9]); (("d", 1%Z), [Fin 6; Fin (13 + e)])].
Definition pretest_list (e : R) : list item :=
  [mkI (Some 1%Z) 1 (7 + e); mkI (Some 0%Z) 2 1; mkI (Some 0%Z) 3 9; mkI (Some 1%Z) 6 (13 + e)].

Lemma pretest_runs e : 0 <= e -> NoDup (t_cols (pretest_table e)) /\ pretest_items arm_of (pretest_table e) "clicks" (pretest_list e) /\
  sqdev (map i_pre (pretest_list e)) = 14 /\
  exists r, analyze_single_metric cauchy argsort_ref arm_of (pretest_table e) true pretest_design "clicks" None None = Ok r.
Proof.
  intros HE.
  assert (ND : NoDup (t_cols (pretest_table e))) by (repeat constructor; simpl; intuition discriminate). split; auto.
  assert (IT : pretest_items arm_of (pretest_table e) "clicks" (pretest_list e)).
  { split; [reflexivity|]. split; [exists 0%nat|exists 1%nat]; (split; [reflexivity|repeat constructor]). }
  split; auto.
  assert (SQ : sqdev (map i_pre (pretest_list e)) = 14) by (unfold sqdev, avg, pretest_list; simpl; field). split; auto.
  assert (U4 : usable (List.length (pretest_list e)) (chosen pretest_design None)) by (apply usable_0; [simpl; lia|vm_compute; discriminate]).
  rewrite (analysis_with_pretest arm_of cauchy argsort_ref (pretest_table e) pretest_design "clicks" (pretest_list e) None
    argsort_ref_sorts ND eq_refl U4 (proj2 f0_val) ltac:(rewrite SQ; lra) IT). rewrite SQ.
  assert (CD : codev (map i_test (pretest_list e)) (map i_pre (pretest_list e)) = 24 + e).
  { unfold codev, avg, pretest_list. simpl. field. }
  rewrite CD.
  assert (U2 : usable 2 f0) by (apply usable_0; [lia|vm_compute; discriminate]).
  apply positive_runs; auto; unfold avg; simpl; nra.
Qed.

Example c64_example_pretest : exists t' r r' d,
  apply_synthetic_treatment_effect arm_of (pretest_table 0) true pretest_design "clicks" (Fin 14) = Ok t' /\
  analyze_single_metric cauchy argsort_ref arm_of (pretest_table 0) true pretest_design "clicks" None None = Ok r /\
  analyze_single_metric cauchy argsort_ref arm_of t' true pretest_design "clicks" None None = Ok r' /\
  r_abs r = Fin d /\ r_abs r' = Fin (d + 13).
Proof.
  destruct (pretest_runs 0 ltac:(lra)) as (ND & IT & SQ & r & H). destruct (pretest_runs 14 ltac:(lra)) as (_ & _ & _ & r' & H').
  assert (HE : apply_synthetic_treatment_effect arm_of (pretest_table 0) true pretest_design "clicks" (Fin 14) = Ok (pretest_table 14)).
  { unfold apply_synthetic_treatment_effect, pretest_table. cbn. rewrite !Rplus_0_r. reflexivity. }
  exists (pretest_table 14), r, r'.
  assert (U4 : usable (List.length (pretest_list 0)) (chosen pretest_design None)) by (apply usable_0; [simpl; lia|vm_compute; discriminate]).
  destruct (c64_share_recovered_with_pretest arm_of cauchy argsort_ref (pretest_table 0) (pretest_table 14) pretest_design "clicks" 14 (pretest_list 0) None r r'
    argsort_ref_sorts ND eq_refl U4 (proj2 f0_val) ltac:(rewrite SQ; lra)) as (d & H1 & H2 & _); auto.
  { intros x [<-|[<-|[<-|[<-|[]]]]]; cbn; auto. }
  exists d. split; auto. split; auto. split; auto. split; auto. rewrite H2. f_equal. rewrite SQ.
  assert (C1 : codev (map indicator (pretest_list 0)) (map i_pre (pretest_list 0)) = 1) by (unfold codev, avg, indicator, pretest_list; simpl; field).
  assert (C2 : sqdev (map indicator (pretest_list 0)) = 1) by (unfold sqdev, avg, indicator, pretest_list; simpl; field).
  rewrite C1, C2. set (s := sqrt (1 * 14)).
  assert (SS : s * s = 14) by (unfold s; rewrite sqrt_sqrt; lra).
  assert (S0 : s <> 0) by (intros E; rewrite E in SS; lra).
  replace ((1 / s) ^ 2) with (1 / (s * s)) by (field; auto). rewrite SS. field.
Qed.

Print Assumptions c63_recovered_exactly_without_demeaning.
Print Assumptions c63_recovered_share_with_demeaning.
Print Assumptions c64_recovered_exactly_without_pretest.
Print Assumptions c64_share_recovered_with_pretest.
