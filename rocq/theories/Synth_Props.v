(** Property theorems C39-C42 (samplers, synthetic data, demo effects). *)
From Coq Require Import ZArith Reals List String Bool Lia Lra Psatz.
From Coq Require Import DecimalString DecimalNat.
From Flocq Require Import Core.
Require Import Verif.Base Verif.Num Verif.Frame Verif.ListLib Verif.Design_Model Verif.Design_Props
  Verif.Periods_Model Verif.Periods_Proofs Verif.Periods_Props Verif.Synth_Model.
Import ListNotations.
Open Scope string_scope.
Open Scope list_scope.
Open Scope R_scope.

(** ** C39.  Specification: the k-th moment of the lognormal law with parameters mu, sigma is
    exp (k mu + k^2 sigma^2 / 2) (textbook fact about the law numpy samples from). *)
Definition lognormal_moment (k : nat) (mu sigma : R) : R := exp (INR k * mu + INR k ^ 2 * sigma ^ 2 / 2).
Definition law_mean (moment : nat -> R) : R := moment 1%nat.
Definition law_variance (moment : nat -> R) : R := moment 2%nat - moment 1%nat ^ 2.

Lemma exp_double x : exp (2 * x) = exp x * exp x.
Proof. rewrite <- exp_plus. f_equal. ring. Qed.

Theorem c39_lognormal_moments : forall mean sd, 0 < mean -> 0 < sd ->
  let law k := lognormal_moment k (lognormal_mu mean sd) (lognormal_sigma mean sd) in
  law_mean law = mean /\ law_variance law = sd ^ 2.
Proof.
  intros mean sd Hm Hs law. set (q := sd ^ 2 / mean ^ 2 + 1).
  assert (Q0 : 0 < sd ^ 2 / mean ^ 2) by (apply Rdiv_lt_0_compat; apply pow_lt; auto).
  assert (Q : 1 < q) by (unfold q; lra).
  assert (L : 0 < ln q) by (rewrite <- ln_1; apply ln_increasing; lra).
  assert (S2 : lognormal_sigma mean sd ^ 2 = ln q).
  { unfold lognormal_sigma. fold q. rewrite <- (sqrt_sqrt (ln q)) at 2 by lra. ring. }
  assert (M1 : law 1%nat = mean).
  { unfold law, lognormal_moment. rewrite S2. unfold lognormal_mu. fold q. simpl (INR 1).
    replace (1 * (ln mean - 1 / 2 * ln q) + 1 ^ 2 * ln q / 2) with (ln mean) by field. apply exp_ln; auto. }
  split; [exact M1|]. unfold law_variance. rewrite M1. unfold law, lognormal_moment. rewrite S2. unfold lognormal_mu. fold q.
  replace (INR 2) with 2 by reflexivity.
  replace (2 * (ln mean - 1 / 2 * ln q) + 2 ^ 2 * ln q / 2) with (2 * ln mean + ln q) by field.
  rewrite exp_plus, exp_double, !exp_ln by lra. unfold q. field. lra.
Qed.

Theorem c39_bad_parameters_rejected : forall means sd,
  lognormal_checks means sd = Ok tt <-> (forall m, In m means -> 0 < m) /\ 0 < sd.
Proof.
  intros means sd. unfold lognormal_checks, raise_if.
  assert (F : forallb (fun m => Rlt_bool 0 m) means = true <-> forall m, In m means -> 0 < m).
  { rewrite forallb_forall. split; intros H m I; specialize (H m I); revert H; case Rlt_bool_spec; auto; try discriminate. intros; lra. }
  destruct (forallb _ means) eqn:E; cbn [negb bind].
  - case Rlt_bool_spec; intros; cbn [negb]; (split; [intros|intros [_ ?]]); try discriminate; auto; try lra. split; auto. now apply F.
  - split; [discriminate|]. intros [H _]. apply F in H. discriminate.
Qed.
Example c39_example : lognormal_checks [50] 100 = Ok tt.
Proof. apply c39_bad_parameters_rejected. split; [|lra]. intros m [<-|[]]. lra. Qed.

(** ** C40.  Specification: first and second moments of the beta law with parameters a, b. *)
Definition beta_moment (a b : R) (k : nat) : R :=
  match k with
  | O => 1
  | 1%nat => a / (a + b)
  | _ => a * (a + 1) / ((a + b) * (a + b + 1))
  end.
Lemma beta_setup mean sd : 0 < mean < 1 -> 0 < sd ->
  let u := beta_a_plus_b mean sd in 0 < u /\ u * sd = sqrt (mean * (1 - mean)) /\ (u * sd) ^ 2 = mean * (1 - mean).
Proof.
  intros Hm Hs u. assert (P : 0 < mean * (1 - mean)) by nra. assert (S0 := sqrt_lt_R0 _ P).
  assert (E : u * sd = sqrt (mean * (1 - mean))) by (unfold u, beta_a_plus_b; field; lra).
  split; [apply Rdiv_lt_0_compat; auto|]. split; auto. rewrite E. rewrite <- (sqrt_sqrt (mean * (1 - mean))) at 2 by lra. ring.
Qed.
Theorem c40_beta_mean : forall mean sd, 0 < mean < 1 -> 0 < sd ->
  0 < beta_a mean sd /\ 0 < beta_b mean sd /\ law_mean (beta_moment (beta_a mean sd) (beta_b mean sd)) = mean.
Proof.
  intros mean sd Hm Hs. destruct (beta_setup mean sd Hm Hs) as (U & _). unfold law_mean, beta_moment, beta_a, beta_b.
  set (u := beta_a_plus_b mean sd) in *. split; [nra|]. split; [nra|]. field. lra.
Qed.
(** the variance is mean (1-mean) / (u + 1) with u = sqrt (mean (1-mean)) / sd; it is the requested
    sd^2 exactly when u is the golden ratio *)
Theorem c40_beta_variance : forall mean sd, 0 < mean < 1 -> 0 < sd ->
  let var := law_variance (beta_moment (beta_a mean sd) (beta_b mean sd)) in
  var = mean * (1 - mean) / (sqrt (mean * (1 - mean)) / sd + 1) /\
  (var = sd ^ 2 <-> mean * (1 - mean) / sd ^ 2 - 1 = sqrt (mean * (1 - mean)) / sd) /\
  (var = sd ^ 2 <-> sqrt (mean * (1 - mean)) / sd = (1 + sqrt 5) / 2).
Proof.
  intros mean sd Hm Hs var. destruct (beta_setup mean sd Hm Hs) as (U & E & E2).
  fold (beta_a_plus_b mean sd). set (u := beta_a_plus_b mean sd) in *.
  assert (V : var = mean * (1 - mean) / (u + 1)).
  { unfold var, law_variance, beta_moment, beta_a, beta_b. fold u. field. split; lra. }
  assert (S2 : 0 < sd ^ 2) by (apply pow_lt; auto).
  assert (A : mean * (1 - mean) / sd ^ 2 = u ^ 2) by (rewrite <- E2; field; lra).
  assert (I : var = sd ^ 2 <-> u ^ 2 - 1 = u).
  { rewrite V. split; intros H.
    - assert (mean * (1 - mean) = sd ^ 2 * (u + 1)) by (rewrite <- H; field; lra). rewrite <- E2 in H0.
      assert (sd ^ 2 * (u ^ 2 - (u + 1)) = 0) by (replace (sd ^ 2 * (u ^ 2 - (u + 1))) with ((u * sd) ^ 2 - sd ^ 2 * (u + 1)) by ring; lra).
      apply Rmult_integral in H1 as [|]; lra.
    - rewrite <- E2. replace ((u * sd) ^ 2) with (sd ^ 2 * u ^ 2) by ring. replace (u ^ 2) with (u + 1) by lra. field. lra. }
  split; [exact V|]. split; [rewrite A; exact I|]. rewrite I.
  assert (S5 := sqrt_sqrt 5 ltac:(lra)). assert (P5 := sqrt_lt_R0 5 ltac:(lra)). set (s := sqrt 5) in *.
  split; intros H.
  - assert ((u - (1 + s) / 2) * (u - (1 - s) / 2) = 0) by (replace ((u - (1 + s) / 2) * (u - (1 - s) / 2)) with (u ^ 2 - u - (s * s - 1) / 4) by field; lra).
    assert (1 < s) by nra. apply Rmult_integral in H0 as [|]; lra.
  - rewrite H. replace (((1 + s) / 2) ^ 2) with ((1 + 2 * s + s * s) / 4) by field. rewrite S5. field.
Qed.
(** the default conversion rate (0.1, sd 0.075): the sampled variance is more than three times the requested one *)
Theorem c40_beta_standard_deviation_refuted :
  exists mean sd, beta_checks mean sd = Ok tt /\
    law_variance (beta_moment (beta_a mean sd) (beta_b mean sd)) > 3 * sd ^ 2.
Proof.
  exists (1 / 10), (75 / 1000). split.
  - unfold beta_checks, raise_if. rewrite !Rlt_bool_true by lra. reflexivity.
  - destruct (c40_beta_variance (1 / 10) (75 / 1000)) as (V & _); try lra. rewrite V.
    replace (1 / 10 * (1 - 1 / 10)) with (3 / 10 * (3 / 10)) by lra. rewrite sqrt_square by lra.
    replace (3 / 10 * (3 / 10) / (3 / 10 / (75 / 1000) + 1)) with (18 / 1000) by field. lra.
Qed.

(** ** C41 *)
Lemma item_id_inj i j : item_id i = item_id j -> i = j.
Proof.
  unfold item_id. intros H. assert (E : NilEmpty.string_of_uint (Nat.to_uint i) = NilEmpty.string_of_uint (Nat.to_uint j)).
  { cbn [String.append] in H. congruence. }
  apply (f_equal NilEmpty.uint_of_string) in E. rewrite !NilEmpty.usu in E.
  assert (X : Nat.to_uint i = Nat.to_uint j) by congruence. apply Unsigned.to_uint_inj in X. exact X.
Qed.

Record valid_synth (p : sparams) : Prop := {
  vs_items : (0 <= n_items p)%Z;
  vs_imp : 0 < imp_avg p /\ 0 < imp_sd p;
  vs_ctr : 0 < ctr_avg p < 1 /\ 0 < ctr_sd p < 1;
  vs_cpc : 0 < cpc_avg p /\ 0 < cpc_item_sd p /\ 0 < cpc_daily_sd p;
  vs_cvr : 0 < cvr_avg p < 1 /\ 0 < cvr_sd p < 1;
  vs_val : 0 < val_avg p /\ 0 < val_item_sd p /\ 0 < val_daily_sd p
}.

Lemma raise_if_tt b e : raise_if b e = Ok tt <-> b = false.
Proof. destruct b; simpl; split; congruence. Qed.
Lemma unit_ok (x : result unit) u : x = Ok u -> x = Ok tt. Proof. now destruct u. Qed.
Lemma beta_checks_iff mean sd : beta_checks mean sd = Ok tt <-> 0 < mean < 1 /\ 0 < sd < 1.
Proof.
  unfold beta_checks, raise_if. repeat case Rlt_bool_spec; intros; simpl; split; intros H'; try discriminate; auto; lra.
Qed.
Lemma single_checks m sd : lognormal_checks [m] sd = Ok tt <-> 0 < m /\ 0 < sd.
Proof.
  rewrite c39_bad_parameters_rejected. simpl. split.
  - intros [H ?]. split; auto.
  - intros [H ?]. split; auto. now intros m' [<-|[]].
Qed.
Lemma many_checks {A} (f : A -> R) l sd : (forall a, 0 < f a) -> lognormal_checks (map f l) sd = Ok tt <-> 0 < sd.
Proof.
  intros H. rewrite c39_bad_parameters_rejected. split; [tauto|]. intros. split; auto. intros m I. apply in_map_iff in I as (a & <- & _). apply H.
Qed.

Theorem c41_runs_exactly_on_valid_parameters : forall g p start,
  (exists rows, generate_synthetic_data g p start = Ok rows) <-> valid_synth p.
Proof.
  intros g p start. unfold generate_synthetic_data. cbv zeta. split.
  - intros [rows H].
    apply bind_ok in H as (u1 & H1 & H). apply bind_ok in H as (u2 & H2 & H). apply bind_ok in H as (u3 & H3 & H).
    apply bind_ok in H as (u4 & H4 & H). apply bind_ok in H as (u5 & H5 & H). apply bind_ok in H as (u6 & H6 & H).
    apply bind_ok in H as (u7 & H7 & H). apply bind_ok in H as (u8 & H8 & H).
    apply unit_ok in H1, H2, H3, H4, H5, H6, H7, H8.
    apply single_checks in H1, H4, H6. apply beta_checks_iff in H3, H5. unfold check_size in H2. apply raise_if_tt in H2.
    apply many_checks in H7; [|intros; apply lognormal_range]. apply many_checks in H8; [|intros; apply lognormal_range].
    apply Z.ltb_ge in H2. constructor; tauto.
  - intros [? ? ? ? ? ?].
    rewrite (proj2 (single_checks _ _)) by tauto. cbn [bind]. unfold check_size. rewrite (proj2 (raise_if_tt _ _)) by (now apply Z.ltb_ge). cbn [bind].
    rewrite (proj2 (beta_checks_iff _ _)) by tauto. cbn [bind]. rewrite (proj2 (single_checks _ _)) by tauto. cbn [bind].
    rewrite (proj2 (beta_checks_iff _ _)) by tauto. cbn [bind]. rewrite (proj2 (single_checks _ _)) by tauto. cbn [bind].
    rewrite (proj2 (many_checks _ _ _ (fun i => lognormal_range _ _ _ _ _ _))) by tauto. cbn [bind].
    rewrite (proj2 (many_checks _ _ _ (fun i => lognormal_range _ _ _ _ _ _))) by tauto. cbn [bind]. eauto.
Qed.

Lemma synth_rows g p start rows : generate_synthetic_data g p start = Ok rows ->
  exists cellrow : nat -> nat -> Z -> srow,
    rows = List.concat (map (fun i => map (fun jd => cellrow i (fst jd) (snd jd))
             (combine (seq 0 (List.length (synth_dates start (weeks_before p) (weeks_after p)))) (synth_dates start (weeks_before p) (weeks_after p))))
             (seq 0 (Z.to_nat (n_items p)))) /\
    forall i j d, s_date (cellrow i j d) = d /\ s_item (cellrow i j d) = item_id i /\
      (0 <= s_conversions (cellrow i j d) <= s_clicks (cellrow i j d))%Z /\ (s_clicks (cellrow i j d) <= s_impressions (cellrow i j d))%Z /\
      (exists cpc, 0 < cpc /\ s_cost (cellrow i j d) = cpc * IZR (s_clicks (cellrow i j d))) /\
      (exists v, 0 < v /\ s_value (cellrow i j d) = v * IZR (s_conversions (cellrow i j d))).
Proof.
  intros H. unfold generate_synthetic_data in H. cbv zeta in H.
  do 8 (apply bind_ok in H as (? & _ & H)).
  match type of H with Ok (List.concat (map (fun i => map (@?F i) _) _)) = _ => exists (fun i j d => F i (j, d)) end.
  split.
  - assert (E := f_equal (fun r => match r with Ok x => x | Err _ => [] end) H). cbv beta iota in E. rewrite <- E. f_equal. apply map_ext. intros i. apply map_ext. intros [j d]. reflexivity.
  - intros i j d. cbn [s_date s_item s_conversions s_clicks s_impressions s_cost s_value].
    match goal with |- context [draw_binomial g 8 (draw_binomial g 6 ?im ?p6 i j) ?p8 i j] =>
      assert (B0 : (0 <= im)%Z) by apply poisson_range; assert (B1 := binomial_range g 6 im p6 i j B0);
      assert (B2 := binomial_range g 8 (draw_binomial g 6 im p6 i j) p8 i j (proj1 B1)) end.
    repeat split; try lia; eexists; (split; [|reflexivity]); apply lognormal_range.
Qed.

Lemma In_py_range n x : In x (py_range n) <-> (0 <= x < n)%Z.
Proof.
  unfold py_range. rewrite in_map_iff. split.
  - intros (k & <- & I). apply in_seq in I. lia.
  - intros H. exists (Z.to_nat x). rewrite in_seq. lia.
Qed.
Lemma NoDup_py_range n : NoDup (py_range n).
Proof. unfold py_range. apply FinFun.Injective_map_NoDup; [|apply seq_NoDup]. intros a b. lia. Qed.
Lemma length_py_range n : List.length (py_range n) = Z.to_nat n.
Proof. unfold py_range. now rewrite map_length, seq_length. Qed.
Lemma In_dates start before after d :
  In d (synth_dates start before after) <-> (start - 7 * Z.max 0 before <= d < start + 7 * Z.max 0 after)%Z.
Proof.
  unfold synth_dates. rewrite in_app_iff, !in_map_iff. split.
  - intros [(i & <- & I)|(i & <- & I)]; apply In_py_range in I; lia.
  - intros H. destruct (Z_lt_dec d start).
    + right. exists (start - d - 1)%Z. rewrite In_py_range. lia.
    + left. exists (d - start)%Z. rewrite In_py_range. lia.
Qed.
Lemma NoDup_dates start before after : NoDup (synth_dates start before after).
Proof.
  unfold synth_dates. apply NoDup_app'.
  - apply FinFun.Injective_map_NoDup; [intros a b; lia|apply NoDup_py_range].
  - apply FinFun.Injective_map_NoDup; [intros a b; lia|apply NoDup_py_range].
  - intros x H1 H2. apply in_map_iff in H1 as (a & <- & I1). apply in_map_iff in H2 as (b & E & I2). apply In_py_range in I1, I2. lia.
Qed.
Lemma map_snd_combine_seq {A B} (f : A -> B) (l : list A) s : map (fun jd => f (snd jd)) (combine (seq s (List.length l)) l) = map f l.
Proof. revert s. induction l; intros s; simpl; auto. f_equal. apply IHl. Qed.
Lemma NoDup_grid {B} (f : nat -> string) (ds : list B) s n : (forall i j, f i = f j -> i = j) -> NoDup ds ->
  NoDup (List.concat (map (fun i => map (fun d => (f i, d)) ds) (seq s n))).
Proof.
  intros F D. revert s. induction n; intros s; simpl; [constructor|]. apply NoDup_app'.
  - apply FinFun.Injective_map_NoDup; auto. intros a b. congruence.
  - apply IHn.
  - intros x H1 H2. apply in_map_iff in H1 as (d & <- & _). apply in_concat in H2 as (y & Y1 & Y2).
    apply in_map_iff in Y1 as (k & <- & K). apply in_map_iff in Y2 as (d' & E & _). apply in_seq in K.
    assert (k = s) by (apply F; congruence). lia.
Qed.

Theorem c41_one_row_per_item_and_day : forall g p start rows,
  generate_synthetic_data g p start = Ok rows ->
  List.length rows = (Z.to_nat (n_items p) * (Z.to_nat (7 * weeks_after p) + Z.to_nat (7 * weeks_before p)))%nat /\
  NoDup (map (fun r => (s_item r, s_date r)) rows) /\
  (forall r, In r rows -> exists i, (Z.of_nat i < n_items p)%Z /\ s_item r = item_id i) /\
  (forall i d, (exists r, In r rows /\ s_item r = item_id i /\ s_date r = d) <->
     (Z.of_nat i < n_items p)%Z /\ (start - 7 * Z.max 0 (weeks_before p) <= d < start + 7 * Z.max 0 (weeks_after p))%Z).
Proof.
  intros g p start rows H. destruct (synth_rows _ _ _ _ H) as (F & E & P).
  set (ds := synth_dates start (weeks_before p) (weeks_after p)) in *.
  assert (L : List.length ds = (Z.to_nat (7 * weeks_after p) + Z.to_nat (7 * weeks_before p))%nat).
  { unfold ds, synth_dates. rewrite app_length, !map_length, !length_py_range. lia. }
  assert (EK : map (fun r => (s_item r, s_date r)) rows = List.concat (map (fun i => map (fun d => (item_id i, d)) ds) (seq 0 (Z.to_nat (n_items p))))).
  { rewrite E, concat_map, map_map. f_equal. apply map_ext. intros i. rewrite map_map. rewrite <- (map_snd_combine_seq (fun d => (item_id i, d)) ds 0).
    apply map_ext. intros [j d]. cbn [fst snd]. destruct (P i j d) as (-> & -> & _). reflexivity. }
  assert (IN : forall k d, In (k, d) (map (fun r => (s_item r, s_date r)) rows) <-> exists i, (Z.of_nat i < n_items p)%Z /\ k = item_id i /\ In d ds).
  { intros k d. rewrite EK, in_concat. split.
    - intros (y & Y1 & Y2). apply in_map_iff in Y1 as (i & <- & I). apply in_map_iff in Y2 as (d' & E' & D). apply in_seq in I.
      exists i. split; [lia|]. split; [congruence|]. assert (d' = d) by congruence. now subst.
    - intros (i & I & -> & D). eexists. split; [apply in_map_iff; exists i; split; [reflexivity|apply in_seq; lia]|]. apply in_map_iff. eauto. }
  split; [|split; [|split]].
  - rewrite <- (map_length (fun r => (s_item r, s_date r))), EK. rewrite <- L.
    generalize (Z.to_nat (n_items p)). intros n. generalize 0%nat. induction n; intros s; simpl; auto.
    rewrite app_length, map_length. f_equal. apply IHn.
  - rewrite EK. apply NoDup_grid; [exact item_id_inj|apply NoDup_dates].
  - intros r I. apply (in_map (fun r => (s_item r, s_date r))) in I. apply IN in I as (i & ? & ? & _). eauto.
  - intros i d. rewrite <- In_dates. fold ds. split.
    + intros (r & I & E1 & E2). apply (in_map (fun r => (s_item r, s_date r))) in I. apply IN in I as (i' & I1 & I2 & I3).
      rewrite E1 in I2. apply item_id_inj in I2 as <-. subst d. auto.
    + intros [I D]. assert (X : In (item_id i, d) (map (fun r => (s_item r, s_date r)) rows)) by (apply IN; eauto).
      apply in_map_iff in X as (r & ER & IR). exists r. split; auto. split; congruence.
Qed.

Theorem c41_counts_are_consistent : forall g p start rows r,
  generate_synthetic_data g p start = Ok rows -> In r rows ->
  (0 <= s_conversions r <= s_clicks r)%Z /\ (s_clicks r <= s_impressions r)%Z /\
  0 <= s_cost r /\ (s_cost r = 0 <-> s_clicks r = 0%Z) /\
  0 <= s_value r /\ (s_value r = 0 <-> s_conversions r = 0%Z).
Proof.
  intros g p start rows r H I. destruct (synth_rows _ _ _ _ H) as (F & E & P).
  rewrite E in I. apply in_concat in I as (l & L & I). apply in_map_iff in L as (i & <- & _). apply in_map_iff in I as ([j d] & <- & _).
  cbn [fst snd]. destruct (P i j d) as (_ & _ & A & B & (c & C & EC) & (v & V & EV)). set (x := F i j d) in *.
  assert (K : forall c n, 0 < c -> (0 <= n)%Z -> 0 <= c * IZR n /\ (c * IZR n = 0 <-> n = 0%Z)).
  { intros a n Ha Hn. split; [apply Rmult_le_pos; [lra|now apply IZR_le]|]. split.
    - intros Z. apply Rmult_integral in Z as [Z|Z]; [lra|]. now apply eq_IZR.
    - intros ->. ring. }
  rewrite EC, EV. destruct (K c (s_clicks x)) as [K1 K2]; auto; [lia|]. destruct (K v (s_conversions x)) as [K3 K4]; auto; [lia|].
  tauto.
Qed.

(** a generator exists, and the default parameters are valid (here with 70 items) *)
Definition flat_rng : rng.
Proof.
  refine (mkRng (fun _ _ _ _ _ => 1) (fun _ _ _ _ _ => 1 / 2) (fun _ _ _ _ => 3%Z) (fun _ n _ _ _ => n) _ _ _ _); intros; try lra; lia.
Defined.
Definition default_synth : sparams :=
  mkSP 70 50 100 (2 / 100) (15 / 1000) (1 / 2) (1 / 2) (1 / 2) (1 / 10) (75 / 1000) 100 80 10 0 13.
Example c41_example : exists rows, generate_synthetic_data flat_rng default_synth 0 = Ok rows /\ List.length rows = (70 * 91)%nat.
Proof.
  assert (V : valid_synth default_synth) by (constructor; cbn; try lra; lia).
  apply (c41_runs_exactly_on_valid_parameters flat_rng default_synth 0) in V as [rows E]. exists rows. split; auto.
  destruct (c41_one_row_per_item_and_day _ _ _ _ E) as (L & _). rewrite L. reflexivity.
Qed.

(** ** C42 *)
Definition metric_effect (e_imp e_clk e_conv e_val e_cost : R) (c : string) : option R :=
  if String.eqb c "impressions" then Some e_imp
  else if String.eqb c "clicks" then Some e_clk
  else if String.eqb c "conversions" then Some e_conv
  else if String.eqb c "total_conversion_value" then Some e_val
  else if String.eqb c "total_cost" then Some e_cost
  else None.
Definition is_number (k : Z) (c : cell) : Prop := c = CZ k \/ c = CNum (Fin (IZR k)).
(** who is treated when: a crossover swaps the arms in its second half, washouts included *)
Definition treated_in (is_crossover : Prop) (period assignment : cell) : Prop :=
  (is_crossover /\ (period = CStr "washout_1" \/ period = CStr "test_1") /\ is_number 1 assignment) \/
  (is_crossover /\ (period = CStr "washout_2" \/ period = CStr "test_2") /\ is_number 0 assignment) \/
  (~ is_crossover /\ period = CStr "test" /\ is_number 1 assignment).
(** the number in a cell *)
Definition cell_value (c : cell) : option num :=
  match c with CZ z => Some (Fin (IZR z)) | CNum x => Some x | _ => None end.

Lemma is_label_iff s c : is_label s c = true <-> c = CStr s.
Proof. destruct c; simpl; try (split; congruence). rewrite String.eqb_eq. split; congruence. Qed.
Lemma is_int_iff k c : is_int k c = true <-> is_number k c.
Proof.
  unfold is_number. destruct c; simpl; try (split; [discriminate|intros [|]; discriminate]).
  - rewrite Z.eqb_eq. split; [intros ->; auto|intros [H|H]; congruence].
  - destruct x; simpl; try (split; [discriminate|intros [|]; discriminate]).
    case Req_bool_spec; intros H; split; intros H'; try discriminate; auto.
    + right. now subst.
    + destruct H' as [H'|H']; [discriminate|]. assert (r = IZR k) by congruence. contradiction.
Qed.

Lemma mask_length ps asg : List.length ps = List.length asg -> List.length (treated_mask ps asg) = List.length ps.
Proof. intros E. unfold treated_mask. rewrite map_length, combine_length. lia. Qed.
Lemma mask_nth ps asg r : List.length ps = List.length asg -> (r < List.length ps)%nat ->
  (nth r (treated_mask ps asg) false = true <->
   treated_in (In (CStr "test_1") ps) (nth r ps CNull) (nth r asg CNull)).
Proof.
  intros E L. unfold treated_mask.
  set (X := existsb (is_label "test_1") ps).
  assert (HX : X = true <-> In (CStr "test_1") ps).
  { unfold X. rewrite existsb_exists. split; [intros (c & I & H); apply is_label_iff in H as ->; auto|].
    intros I. eexists. split; [exact I|]. now apply is_label_iff. }
  match goal with |- nth _ (map ?F _) _ = true <-> _ => set (G := F) end.
  rewrite (nth_indep _ false (G (CNull, CNull))) by (rewrite map_length, combine_length; lia). rewrite (map_nth G).
  rewrite combine_nth by auto. unfold G, treated_in. rewrite <- HX. clear HX. set (p := nth r ps CNull). set (a := nth r asg CNull).
  destruct X.
  - rewrite orb_true_iff, !andb_true_iff, !orb_true_iff, !is_label_iff, !is_int_iff. split; [|intuition discriminate]. intuition.
  - rewrite andb_true_iff, is_label_iff, is_int_iff. split; [|intuition discriminate]. intuition discriminate.
Qed.

Lemma set_col_columns c v f : has_col c f = true -> columns (set_col c v f) = columns f.
Proof.
  induction f as [|[c' v'] f IH]; [discriminate|]. unfold has_col. simpl. destruct (String.eqb_spec c c').
  - subst. reflexivity.
  - simpl. intros H. f_equal. now apply IH.
Qed.
Lemma scale_where_ok mask c k f : has_col c f = true -> exists v f',
  get_col c f = Some v /\ scale_where mask c k f = Ok f' /\ columns f' = columns f /\
  get_col c f' = Some (map (fun mc : bool * cell => if fst mc then scale_cell k (snd mc) else snd mc) (combine mask v)) /\
  forall d, c <> d -> get_col d f' = get_col d f.
Proof.
  intros H. assert (HC := H). apply has_col_get in HC as [v E]. exists v. unfold scale_where. rewrite E. eexists. split; [reflexivity|]. split; [reflexivity|].
  split; [now apply set_col_columns|]. split; [apply get_set_same|]. intros d N. now apply get_set_other.
Qed.
Lemma has_col_columns c f f' : columns f' = columns f -> has_col c f' = has_col c f.
Proof. unfold has_col. now intros ->. Qed.

Definition metric_columns : list string := ["impressions"; "clicks"; "conversions"; "total_conversion_value"; "total_cost"].

Theorem c42_effects_on_treated_rows_only :
  forall f pc ac ps asg e_imp e_clk e_conv e_val e_cost,
    get_col pc f = Some ps -> get_col ac f = Some asg ->
    (forall c v, get_col c f = Some v -> List.length v = List.length ps) ->
    (forall c, In c metric_columns -> has_col c f = true) ->
    exists f', add_relative_effects f pc ac e_imp e_clk e_conv e_val e_cost = Ok f' /\
      columns f' = columns f /\
      forall c v, get_col c f = Some v ->
        exists v', get_col c f' = Some v' /\ List.length v' = List.length ps /\
          match metric_effect e_imp e_clk e_conv e_val e_cost c with
          | None => v' = v
          | Some e => forall r, (r < List.length ps)%nat ->
              let treated := treated_in (In (CStr "test_1") ps) (nth r ps CNull) (nth r asg CNull) in
              (treated -> cell_value (nth r v' CNull) = option_map (fun x => nmul x (Fin (1 + e))) (cell_value (nth r v CNull))) /\
              (~ treated -> nth r v' CNull = nth r v CNull)
          end.
Proof.
  intros f pc ac ps asg e1 e2 e3 e4 e5 EP EA LEN HC. unfold add_relative_effects. rewrite EP, EA.
  set (mask := treated_mask ps asg).
  assert (LA : List.length ps = List.length asg) by (symmetry; eauto).
  assert (LM : List.length mask = List.length ps) by (apply mask_length; auto).
  destruct (scale_where_ok mask "impressions" (1 + e1) f) as (v1 & f1 & G1 & -> & C1 & N1 & O1); [apply HC; simpl; auto|]. cbn [bind].
  destruct (scale_where_ok mask "clicks" (1 + e2) f1) as (v2 & f2 & G2 & -> & C2 & N2 & O2); [rewrite (has_col_columns _ f) by congruence; apply HC; simpl; auto|]. cbn [bind].
  destruct (scale_where_ok mask "conversions" (1 + e3) f2) as (v3 & f3 & G3 & -> & C3 & N3 & O3); [rewrite (has_col_columns _ f) by congruence; apply HC; simpl; auto|]. cbn [bind].
  destruct (scale_where_ok mask "total_conversion_value" (1 + e4) f3) as (v4 & f4 & G4 & -> & C4 & N4 & O4); [rewrite (has_col_columns _ f) by congruence; apply HC; simpl; auto 6|]. cbn [bind].
  destruct (scale_where_ok mask "total_cost" (1 + e5) f4) as (v5 & f5 & G5 & -> & C5 & N5 & O5); [rewrite (has_col_columns _ f) by congruence; apply HC; simpl; auto 6|].
  exists f5. split; [reflexivity|]. split; [congruence|]. intros c v G.
  assert (SC : forall k w, List.length w = List.length ps ->
    let w' := map (fun mc : bool * cell => if fst mc then scale_cell k (snd mc) else snd mc) (combine mask w) in
    List.length w' = List.length ps /\ forall r, (r < List.length ps)%nat ->
      let treated := treated_in (In (CStr "test_1") ps) (nth r ps CNull) (nth r asg CNull) in
      (treated -> cell_value (nth r w' CNull) = option_map (fun x => nmul x (Fin k)) (cell_value (nth r w CNull))) /\
      (~ treated -> nth r w' CNull = nth r w CNull)).
  { intros k w Hw w'. split; [unfold w'; rewrite map_length, combine_length; lia|]. intros r Hr treated.
    assert (EN : nth r w' CNull = if nth r mask false then scale_cell k (nth r w CNull) else nth r w CNull).
    { unfold w'. match goal with |- nth _ (map ?F _) _ = _ => transitivity (nth r (map F (combine mask w)) (F (false, CNull))); [reflexivity|rewrite (map_nth F)] end.
      rewrite combine_nth by lia. reflexivity. }
    assert (M := mask_nth ps asg r LA Hr). fold mask treated in M. rewrite EN. split; intros T.
    - rewrite (proj2 M T). destruct (nth r w CNull); reflexivity.
    - destruct (nth r mask false); auto. exfalso. apply T, M. reflexivity. }
  unfold metric_effect.
  assert (NE : forall a b : string, String.eqb a b = false -> a <> b) by (intros a b H; now apply String.eqb_neq).
  destruct (String.eqb_spec c "impressions") as [->|K1].
  { eexists. split; [rewrite O5, O4, O3, O2 by (now apply NE); exact N1|]. assert (v1 = v) by congruence. subst. apply SC. eauto. }
  destruct (String.eqb_spec c "clicks") as [->|K2].
  { eexists. split; [rewrite O5, O4, O3 by (now apply NE); exact N2|]. rewrite O1 in G2 by (now apply NE). assert (v2 = v) by congruence. subst. apply SC. eauto. }
  destruct (String.eqb_spec c "conversions") as [->|K3].
  { eexists. split; [rewrite O5, O4 by (now apply NE); exact N3|]. rewrite O2, O1 in G3 by (now apply NE). assert (v3 = v) by congruence. subst. apply SC. eauto. }
  destruct (String.eqb_spec c "total_conversion_value") as [->|K4].
  { eexists. split; [rewrite O5 by (now apply NE); exact N4|]. rewrite O3, O2, O1 in G4 by (now apply NE). assert (v4 = v) by congruence. subst. apply SC. eauto. }
  destruct (String.eqb_spec c "total_cost") as [->|K5].
  { eexists. split; [exact N5|]. rewrite O4, O3, O2, O1 in G5 by (now apply NE). assert (v5 = v) by congruence. subst. apply SC. eauto. }
  exists v. split; [rewrite O5, O4, O3, O2, O1 by congruence; auto|]. eauto.
Qed.

(** a crossover with all periods: item treated first, then the other one *)
Example c42_example :
  treated_mask (map CStr ["pretest"; "washout_1"; "test_1"; "washout_2"; "test_2"; "pretest"; "washout_1"; "test_1"; "washout_2"; "test_2"])
               [CZ 1; CZ 1; CZ 1; CZ 1; CZ 1; CZ 0; CZ 0; CZ 0; CZ 0; CZ 0] =
  [false; true; true; false; false; false; false; false; true; true].
Proof. reflexivity. Qed.

(** zero stays zero *)
Theorem c42_zeros_stay : forall k c, cell_value c = Some (Fin 0) -> cell_value (scale_cell k c) = Some (Fin 0).
Proof.
  intros k [|z| |x]; simpl; intros H; try discriminate.
  - assert (E : IZR z = 0) by congruence. rewrite E, Rmult_0_l. reflexivity.
  - assert (E : x = Fin 0) by congruence. subst. cbn. rewrite Rmult_0_l. reflexivity.
Qed.

(** In terms of the design's calendar.  [weeks] is the week of each row; the periods are the labels
    add_time_period_column gives them (C12, C13). *)
Theorem c42_treated_weeks_regular : forall p d start lab weeks asg r w a,
  mk_design p = Ok d -> crossover p = false -> label_fun p start = Ok lab ->
  nth_error weeks r = Some w -> nth_error asg r = Some (CZ a) -> List.length asg = List.length weeks ->
  (nth r (treated_mask (map (fun w => label_cell (lab w)) weeks) asg) false = true <->
   a = 1%Z /\ (start <= w < start + runtime p)%Z).
Proof.
  intros p d start lab weeks asg r w a HD HC HL EW EA LN.
  assert (RL : (r < List.length weeks)%nat) by (apply nth_error_Some; congruence).
  rewrite mask_nth by (rewrite map_length; lia).
  assert (EP : nth r (map (fun w => label_cell (lab w)) weeks) CNull = label_cell (lab w)).
  { apply nth_error_nth. now rewrite nth_error_map, EW. }
  rewrite EP, (nth_error_nth _ _ CNull EA).
  assert (NP : forall w s, lab w = Some s -> s = "pretest" \/ s = "test").
  { intros w' s. unfold label_fun in HL. rewrite HC in HL. assert (EL : lab = regular_label start (pretest p) (runtime p)) by congruence. rewrite EL.
    unfold regular_label, overwrite. destruct (get_weeks_between w' start _); [intros X; right; congruence|]. destruct (get_weeks_between w' _ _); [intros X; left; congruence|discriminate]. }
  assert (NX : ~ In (CStr "test_1") (map (fun w => label_cell (lab w)) weeks)).
  { intros I. apply in_map_iff in I as (w' & E & _). unfold label_cell in E. destruct (lab w') eqn:L; [|discriminate].
    apply NP in L. destruct L; congruence. }
  destruct (c12_regular_periods p d start w lab HD HC HL) as (_ & B & _).
  assert (T : label_cell (lab w) = CStr "test" <-> (start <= w < start + runtime p)%Z).
  { transitivity (lab w = Some "test").
    - unfold label_cell. destruct (lab w); split; congruence.
    - rewrite B. split; [intros (i & ? & ->); lia|]. intros. exists (w - start)%Z. lia. }
  unfold treated_in, is_number. rewrite T. split.
  - intros [(X & _)|[(X & _)|(_ & Y & [Z|Z])]]; try contradiction; [|discriminate]. split; auto; congruence.
  - intros [-> Y]. right. right. auto.
Qed.

Theorem c42_treated_weeks_crossover : forall p d start lab weeks asg r w a h,
  mk_design p = Ok d -> crossover p = true -> label_fun p start = Ok lab -> runtime p = (2 * h)%Z ->
  nth_error weeks r = Some w -> nth_error asg r = Some (CZ a) -> List.length asg = List.length weeks ->
  (exists w1, In w1 weeks /\ lab w1 = Some "test_1") ->
  (nth r (treated_mask (map (fun w => label_cell (lab w)) weeks) asg) false = true <->
   (a = 1%Z /\ (start <= w < start + h)%Z) \/ (a = 0%Z /\ (start + h <= w < start + 2 * h)%Z)).
Proof.
  intros p d start lab weeks asg r w a h HD HC HL HR EW EA LN (w1 & I1 & L1).
  assert (RL : (r < List.length weeks)%nat) by (apply nth_error_Some; congruence).
  rewrite mask_nth by (rewrite map_length; lia).
  assert (EP : nth r (map (fun w => label_cell (lab w)) weeks) CNull = label_cell (lab w)).
  { apply nth_error_nth. now rewrite nth_error_map, EW. }
  rewrite EP, (nth_error_nth _ _ CNull EA).
  assert (NX : In (CStr "test_1") (map (fun w => label_cell (lab w)) weeks)).
  { apply in_map_iff. exists w1. rewrite L1. auto. }
  destruct (crossover_shape p d HD HC) as (wash & h' & EWa & ER & HW & HPre). assert (h' = h) by lia. subst h'.
  unfold label_fun in HL. rewrite HC, EWa, ER in HL. assert (EL : lab = crossover_label start (pretest p) (2 * h) wash) by congruence.
  destruct (crossover_label_iff start (pretest p) h wash w) as (_ & P1 & P2 & P3 & P4 & _); try lia. rewrite <- EL in *. unfold in_span in *.
  assert (LC : forall s, label_cell (lab w) = CStr s <-> lab w = Some s) by (intros; unfold label_cell; destruct (lab w); split; congruence).
  unfold treated_in, is_number. rewrite !LC, P1, P2, P3, P4.
  assert (A1 : CZ a = CZ 1 \/ CZ a = CNum (Fin (IZR 1)) <-> a = 1%Z) by (split; [intros [|]; congruence|intros ->; auto]).
  assert (A0 : CZ a = CZ 0 \/ CZ a = CNum (Fin (IZR 0)) <-> a = 0%Z) by (split; [intros [|]; congruence|intros ->; auto]).
  rewrite A1, A0. split.
  - intros [(_ & X & Y)|[(_ & X & Y)|(X & _)]]; [left|right|contradiction]; split; auto; lia.
  - intros [[Y X]|[Y X]]; [left|right; left]; (split; [auto|split; [|auto]]); lia.
Qed.

(** Without any row of the first test period the code takes a crossover for a regular experiment:
    treated rows of the first washout get no effect. *)
Theorem c42_washout_without_test_period_refuted :
  exists p d start lab weeks asg,
    mk_design p = Ok d /\ crossover p = true /\ label_fun p start = Ok lab /\
    nth_error weeks 0 = Some start /\ lab start = Some "washout_1" /\ nth_error asg 0 = Some (CZ 1) /\
    List.length asg = List.length weeks /\
    nth 0 (treated_mask (map (fun w => label_cell (lab w)) weeks) asg) false = false.
Proof.
  exists ex_params, ex_design, 10%Z, (crossover_label 10 4 8 1), [10%Z; 9%Z], [CZ 1; CZ 0].
  split; [apply c01_accepts|]. repeat split; reflexivity.
Qed.


Print Assumptions c39_lognormal_moments.
Print Assumptions c39_bad_parameters_rejected.
Print Assumptions c40_beta_mean.
Print Assumptions c40_beta_variance.
Print Assumptions c40_beta_standard_deviation_refuted.
Print Assumptions c41_runs_exactly_on_valid_parameters.
Print Assumptions c41_one_row_per_item_and_day.
Print Assumptions c41_counts_are_consistent.
Print Assumptions c42_effects_on_treated_rows_only.
Print Assumptions c42_zeros_stay.
Print Assumptions c42_treated_weeks_regular.
Print Assumptions c42_treated_weeks_crossover.
Print Assumptions c42_washout_without_test_period_refuted.
