(** C90, continued: crossover weeks, item counts and percentages in the text of a design. *)
From Coq Require Import ZArith Reals List String Ascii Bool Lia Lra.
From Flocq Require Import Core BinarySingleNaN.
Require Import Verif.Base Verif.F64 Verif.MD5 Verif.Design_Model Verif.Design_Spec Verif.Design_Proofs
  Verif.Design_Yaml_Proofs Verif.Design_Text_Proofs Verif.Periods_Model Verif.Periods_Props
  Verif.Display_Model Verif.Display_Spec Verif.Display_Proofs Verif.Display_Props
  Verif.Text_Model Verif.Text_Spec Verif.Text_Proofs Verif.Text_Props Verif.Periods_Proofs Verif.Table_Props.
Import ListNotations.
Open Scope string_scope.
Open Scope Z_scope.

Lemma listed_ints l : Forall (fun z => 0 <= z) l -> listed (join ", " (map dec l)) l.
Proof.
  induction 1 as [|z l Z F IH]; [constructor|]. destruct l as [|y l]; [constructor; now apply numeral_dec|].
  change (join ", " (map dec (z :: y :: l))) with (dec z ++ ", " ++ join ", " (map dec (y :: l))).
  constructor; auto. now apply numeral_dec.
Qed.

Theorem c90_crossover_lines :
  forall frepr p d text, mk_design p = Ok d -> readable frepr p -> design_text frepr d = Ok text ->
    (forall z, shows text "Number of crossover washout weeks to ignore at start of each period: " z <->
               crossover p = true /\ washout p = Some z) /\
    (forall z, (exists s, says text ("Control and treatment to be swapped " ++ s ++ " weeks after starting the experiment") /\ numeral s z) <->
               crossover p = true /\ 2 * z = runtime p) /\
    ((exists s, says text ("Weeks [" ++ s ++ "] are the washout weeks to be excluded from the analysis")) <-> crossover p = true) /\
    (forall s, says text ("Weeks [" ++ s ++ "] are the washout weeks to be excluded from the analysis") ->
       exists ws, listed s ws /\
         forall start lab, label_fun p start = Ok lab ->
           forall k, In k ws <-> lab (start + k - 1) = Some "washout_1" \/ lab (start + k - 1) = Some "washout_2").
Proof.
  intros frepr p d text H R T. assert (SC := says_cases frepr p d text H R T).
  assert (V := proj1 (proj1 (mk_design_iff p d) H)). assert (R0 := ok_runtime p V).
  assert (W0 : forall w, crossover p = true -> washout p = Some w -> 0 <= w /\ Z.Even (runtime p)).
  { intros w C W. destruct (ok_crossover p V C) as (w' & W' & A & _ & B). rewrite W in W'. injection W' as ->. auto. }
  assert (SX := fun w line => says_crossover frepr p d text H R T w line).
  split; [|split; [|split]].
  - intros z. split.
    + intros (s & X & N). apply SC in X. cases X; try other X. apply append_inj_l in X. subst s. split; auto.
      rewrite X1. f_equal. symmetry. apply (numeral_fun _ _ _ N). apply numeral_dec. now apply (W0 w).
    + intros [C W]. exists (dec z). split; [apply (SX z); auto|apply numeral_dec; now apply (W0 z)].
  - intros z. split.
    + intros (s & X & N). apply SC in X. cases X; try other X. apply append_inj_l in X. apply append_inj_r in X. subst s. split; auto.
      destruct (W0 w X0 X1) as [_ [h E]]. assert (Q : runtime p / 2 = h) by (rewrite E, Z.mul_comm, Z.div_mul; lia). rewrite Q in N.
      assert (z = h) by (apply (numeral_fun _ _ _ N), numeral_dec; lia). lia.
    + intros [C E]. destruct (ok_crossover p V C) as (w & W & _). assert (Q : runtime p / 2 = z) by (rewrite <- E, Z.mul_comm, Z.div_mul; lia).
      exists (dec z). split; [|apply numeral_dec; lia]. apply (SX w); auto. left. now rewrite Q.
  - split.
    + intros (s & X). apply SC in X. cases X; try other X. auto.
    + intros C. destruct (ok_crossover p V C) as (w & W & _). exists (join ", " (map dec (printed_washout_weeks p w))).
      apply (SX w); auto. right; right. unfold str_of_ints. rewrite !append_assoc. reflexivity.
  - intros s X. apply SC in X. cases X; try other X. unfold str_of_ints in X. rewrite !append_assoc in X.
    change ("Weeks [" ++ s ++ "] are the washout weeks to be excluded from the analysis" =
            "Weeks [" ++ join ", " (map dec (printed_washout_weeks p w)) ++ "] are the washout weeks to be excluded from the analysis") in X.
    apply append_inj_l, append_inj_r in X. subst s. exists (printed_washout_weeks p w). destruct (W0 w X0 X1) as [W1 _]. split.
    + apply listed_ints. apply Forall_forall. intros z Z. unfold printed_washout_weeks in Z. rewrite in_app_iff, !zrange_In in Z.
      assert (0 <= runtime p / 2) by (apply Z.div_pos; lia). lia.
    + intros start lab L k. now apply c07_printed_washout_weeks_are_labelled_washout with (d := d).
Qed.

(** *** items *)
Lemma trim_zero q n : B2R (q : f64) = 0%R -> trim_count q n = 0.
Proof. intros E. unfold trim_count. rewrite E, Rmult_0_l, rnd_0. apply Zfloor_IZR. Qed.

Lemma percent_text q : is_finite q = true -> (0 < B2R q <= 1)%R ->
  exists s, percent q = s ++ "%" /\ decimal 2 s (ZnearestE (percent_of q * 100)).
Proof.
  intros F B. destruct (of_Z_correct 100) as [F1 V1]; [lia|].
  assert (RQ : rnd (B2R q) = B2R q) by (apply round_generic; auto with typeclass_instances; apply B2R_format).
  assert (Y : is_finite (fmul q (of_Z 100)) = true /\ (0 < B2R (fmul q (of_Z 100)))%R).
  { destruct (fmul_cases q (of_Z 100) F F1) as [(A1 & A2 & A3)|(A1 & A2)]; rewrite V1 in *.
    - split; auto. rewrite A3. apply Rlt_le_trans with (B2R q); [lra|]. rewrite <- RQ at 1. apply rnd_le. lra.
    - exfalso. apply A1. apply fits_small. rewrite Rabs_right by lra. apply Rle_trans with (bpow radix2 7); [|apply bpow_le; lia].
      simpl. lra. }
  destruct Y as [Y1 Y2]. exists (unsigned_text 2 (fmul q (of_Z 100))). unfold percent, fixed.
  assert (N : negative (fmul q (of_Z 100)) = false).
  { apply Bool.not_true_iff_false. intros N. apply negative_iff in N; auto; lra. }
  rewrite N. split; [reflexivity|].
  assert (D := unsigned_text_shown 2 _ ltac:(lia) Y1). replace (10 ^ 2)%R with 100%R in D by ring.
  rewrite Z.abs_eq in D; auto. rewrite <- (Zrnd_IZR ZnearestE 0). apply Zrnd_le; auto with typeclass_instances. lra.
Qed.

(** the displayed percentage is the percentile to two decimals of a percent *)
Lemma percent_error q : is_finite q = true -> (0 <= B2R q <= 1)%R ->
  (Rabs (IZR (ZnearestE (percent_of q * 100)) / 100 - 100 * B2R q) <= 1 / 200 + 1 / 2 ^ 40)%R.
Proof.
  intros F B. destruct (of_Z_correct 100) as [F1 V1]; [lia|].
  assert (E : percent_of q = rnd (B2R q * 100)).
  { unfold percent_of. destruct (fmul_cases q (of_Z 100) F F1) as [(A1 & A2 & A3)|(A1 & A2)]; rewrite V1 in *; auto.
    exfalso. apply A1. apply fits_small. rewrite Rabs_right by lra. apply Rle_trans with (bpow radix2 7); [|apply bpow_le; lia].
    simpl. lra. }
  assert (N := Znearest_half (fun n => negb (Z.even n)) (percent_of q * 100)). fold ZnearestE in N.
  assert (Q := rnd_error (B2R q * 100)). rewrite <- E in Q. rewrite (Rabs_right (B2R q * 100)) in Q by lra.
  assert (T : (bpow radix2 (-53) * (B2R q * 100) + bpow radix2 (-1075) <= 1 / 2 ^ 40)%R).
  { assert (X : (bpow radix2 (-53) <= / 2 ^ 48 / 2 ^ 5)%R) by (simpl; lra).
    assert (Y : (bpow radix2 (-1075) <= bpow radix2 (-50))%R) by (apply bpow_le; lia). assert (Z : (bpow radix2 (-50) = / 2 ^ 50)%R) by (simpl; lra).
    assert (P := bpow_ge_0 radix2 (-53)). assert (bpow radix2 (-53) * (B2R q * 100) <= bpow radix2 (-53) * 100)%R by (apply Rmult_le_compat_l; lra). lra. }
  apply Rabs_le_inv in N. apply Rabs_le_inv in Q. apply Rabs_le. lra.
Qed.

(** the beginning of a decimal number is a digit *)
Lemma decimal_head s z a b x : decimal 2 s z -> s ++ x = String a b -> digit a <> None.
Proof.
  intros (i & f & -> & _ & N & RD). destruct i as [|c i]; [contradiction|]. cbn. intros E. injection E as -> _.
  cbn in RD. now destruct (digit a).
Qed.

Theorem c90_item_lines :
  forall frepr p d text, mk_design p = Ok d -> 0 <= n_before p <= 2 ^ 53 -> readable frepr p -> design_text frepr d = Ok text ->
    let trimmed := n_post d < n_before p in
    (says text "No hero / outlier trimming used" <-> n_pre d = n_before p /\ n_post d = n_pre d) /\
    (forall z, shows text "Number of items: " z <-> ~ trimmed /\ z = n_before p) /\
    (forall z, shows text "Number of items eligible for experimentation (before trimming): " z <-> trimmed /\ z = n_before p) /\
    (forall z, shows text "Number of items remaining after trimming for the experiment: " z <-> n_pre d < n_before p /\ z = n_pre d) /\
    (forall z, shows text "Number of items remaining after trimming for the analysis: " z <-> n_post d < n_pre d /\ z = n_post d).
Proof.
  intros frepr p d text H B R T. assert (SC := says_cases frepr p d text H R T).
  assert (ST := says_trimming frepr p d text H R T). assert (TI := trimming_line_in frepr p d text H T).
  destruct (design_counts p d H B) as (C1 & C2 & C3). cbv zeta.
  split; [|split; [|split; [|split]]].
  - split.
    + intros X. apply SC in X. cases X; try other X. lia.
    + intros [E1 E2]. apply ST, TI. left. split; [lia|]. now right.
  - intros z. split.
    + intros (s & X & N). apply SC in X. cases X; try other X. apply append_inj_l in X. subst s. split; [lia|]. apply (numeral_fun _ _ _ N), numeral_dec. lia.
    + intros [Q ->]. exists (dec (n_before p)). split; [|apply numeral_dec; lia]. apply ST, TI. left. split; [lia|]. now left.
  - intros z. split.
    + intros (s & X & N). apply SC in X. cases X; try other X. apply append_inj_l in X. subst s. split; [lia|]. apply (numeral_fun _ _ _ N), numeral_dec. lia.
    + intros [Q ->]. exists (dec (n_before p)). split; [|apply numeral_dec; lia]. apply ST, TI. right; left. split; [lia|]. reflexivity.
  - intros z. split.
    + intros (s & X & N). apply SC in X. cases X; try other X. apply append_inj_l in X. subst s. split; [lia|]. apply (numeral_fun _ _ _ N), numeral_dec. lia.
    + intros [Q ->]. exists (dec (n_pre d)). split; [|apply numeral_dec; lia]. apply ST, TI. right; right; left. split; [lia|]. split; auto.
  - intros z. split.
    + intros (s & X & N). apply SC in X. cases X; try other X. apply append_inj_l in X. subst s. split; [lia|]. apply (numeral_fun _ _ _ N), numeral_dec. lia.
    + intros [Q ->]. exists (dec (n_post d)). split; [|apply numeral_dec; lia]. apply ST, TI. right; right; right. split; [lia|]. split; auto.
Qed.

Definition top_line (p : params) : string :=
  "% of items with highest " ++ metric p ++ " in pre-test period will not be included in experiment".
Definition bottom_line (p : params) : string :=
  "% items with lowest " ++ metric p ++ " in pre-test period will not be included in experiment".
Definition post_line (p : params) : string :=
  "% of items with highest / lowest " ++ metric p ++ " during experiment runtime will be excluded from the analysis".

(** a percentage is announced if some item is trimmed in that step and the percentile is positive; it is the
    percentile to two decimals of a percent, up to the rounding of one multiplication *)
Theorem c90_percentage_lines :
  forall frepr p d text, mk_design p = Ok d -> 0 <= n_before p <= 2 ^ 53 -> readable frepr p -> design_text frepr d = Ok text ->
    let close z (q : f64) := (Rabs (IZR z / 100 - 100 * B2R q) <= 1 / 200 + 1 / 2 ^ 40)%R in
    ((exists z, shows_percent text "Top " (top_line p) z) <-> n_pre d < n_before p /\ (0 < B2R (top p))%R) /\
    ((exists z, shows_percent text "Bottom " (bottom_line p) z) <-> n_pre d < n_before p /\ (0 < B2R (bottom p))%R) /\
    ((exists z, shows_percent text "Top and bottom " (post_line p) z) <-> n_post d < n_pre d) /\
    (forall z, shows_percent text "Top " (top_line p) z -> close z (top p)) /\
    (forall z, shows_percent text "Bottom " (bottom_line p) z -> close z (bottom p)) /\
    (forall z, shows_percent text "Top and bottom " (post_line p) z -> close z (post p)).
Proof.
  intros frepr p d text H B R T. assert (SC := says_cases frepr p d text H R T).
  assert (ST := says_trimming frepr p d text H R T). assert (TI := trimming_line_in frepr p d text H T).
  destruct (design_counts p d H B) as (C1 & C2 & C3). cbv zeta.
  assert (V := proj1 (proj1 (mk_design_iff p d) H)). destruct (ok_finite p V) as (Ft & Fb & Fp).
  assert (T1 : (0 <= B2R (top p) <= 1)%R) by (split; [apply (ok_top p V)|left; eapply top_lt_1; [apply (ok_bottom p V)|apply (ok_sum p V)]]).
  assert (T2 : (0 <= B2R (bottom p) <= 1)%R) by (split; [apply (ok_bottom p V)|left; eapply top_lt_1; [apply (ok_top p V)|rewrite Rplus_comm; apply (ok_sum p V)]]).
  assert (T3 : (0 <= B2R (post p) <= 1)%R) by (assert (X := ok_post p V); lra).
  assert (PP : n_post d < n_pre d -> (0 < B2R (post p))%R).
  { intros L. destruct (Rle_lt_or_eq_dec 0 (B2R (post p)) (proj1 T3)) as [Q|Q]; auto. exfalso.
    apply mk_design_iff in H as [_ ->]. cbn [n_post n_pre] in L. unfold spec_n_post in L. rewrite trim_zero in L by auto. lia. }
  assert (DU : forall s q, decimal 2 s q -> forall s' q', decimal 2 s' q' -> s = s' -> q = q').
  { intros s q (i & f & E & LF & N & RD) s' q' (i' & f' & E' & LF' & N' & RD') ->. subst s'.
    destruct f as [|f1 [|f2 [|]]]; try discriminate. destruct f' as [|g1 [|g2 [|]]]; try discriminate.
    assert (LI : String.length i = String.length i') by (apply (f_equal String.length) in E'; rewrite !append_length in E'; cbn in E'; lia).
    assert (EQ : i = i' /\ String f1 (String f2 "") = String g1 (String g2 "")).
    { clear - E' LI. revert i' E' LI. induction i as [|c i IH]; intros [|c' i'] E LI; try discriminate.
      - cbn in E. injection E as -> ->. auto.
      - cbn in E. injection E as -> E. injection LI as LI. destruct (IH i' E LI) as [-> EE]. auto. }
    destruct EQ as [-> EQ]. rewrite EQ in RD. congruence. }
  assert (PT := fun q F B0 => percent_text q F B0).
  assert (TOP : forall z, shows_percent text "Top " (top_line p) z -> n_pre d < n_before p /\ (0 < B2R (top p))%R /\ z = ZnearestE (percent_of (top p) * 100)).
  { intros z (s & D & X). apply SC in X. cases X; try other X.
    - apply fgtb_f0 in X2; auto. destruct (PT _ Ft ltac:(lra)) as (s' & E & D'). rewrite E, append_assoc in X. split; auto. split; auto.
      apply append_inj_l in X. change ("%" ++ " of items with highest " ++ metric p ++ " in pre-test period will not be included in experiment") with (top_line p) in X.
      apply append_inj_r in X. eapply DU; eauto.
    - exfalso. cbn [append] in X. injection X as X. now apply (decimal_head _ _ _ _ _ D) in X. }
  assert (BOT : forall z, shows_percent text "Bottom " (bottom_line p) z -> n_pre d < n_before p /\ (0 < B2R (bottom p))%R /\ z = ZnearestE (percent_of (bottom p) * 100)).
  { intros z (s & D & X). apply SC in X. cases X; try other X.
    apply fgtb_f0 in X2; auto. destruct (PT _ Fb ltac:(lra)) as (s' & E & D'). rewrite E, append_assoc in X. split; auto. split; auto.
    apply append_inj_l in X. change ("%" ++ " items with lowest " ++ metric p ++ " in pre-test period will not be included in experiment") with (bottom_line p) in X.
    apply append_inj_r in X. eapply DU; eauto. }
  assert (PST : forall z, shows_percent text "Top and bottom " (post_line p) z -> n_post d < n_pre d /\ z = ZnearestE (percent_of (post p) * 100)).
  { intros z (s & D & X). apply SC in X. cases X; try other X.
    - exfalso. apply fgtb_f0 in X2; auto. destruct (PT _ Ft ltac:(lra)) as (s' & E & D'). rewrite E, append_assoc in X. cbn [append] in X. symmetry in X. injection X as X.
      now apply (decimal_head _ _ _ _ _ D') in X.
    - specialize (PP X1). destruct (PT _ Fp ltac:(lra)) as (s' & E & D'). rewrite E, append_assoc in X. split; auto.
      apply append_inj_l in X. change ("%" ++ " of items with highest / lowest " ++ metric p ++ " during experiment runtime will be excluded from the analysis") with (post_line p) in X.
      apply append_inj_r in X. eapply DU; eauto. }
  split; [|split; [|split; [|split; [|split]]]].
  - split; [intros (z & X); apply TOP in X; tauto|]. intros [L P]. destruct (PT _ Ft ltac:(lra)) as (s & E & D). exists (ZnearestE (percent_of (top p) * 100)), s. split; auto.
    apply ST, TI. right; right; left. split; [lia|]. split; auto. left. apply fgtb_f0 in P; auto. split; auto. rewrite E, append_assoc. reflexivity.
  - split; [intros (z & X); apply BOT in X; tauto|]. intros [L P]. destruct (PT _ Fb ltac:(lra)) as (s & E & D). exists (ZnearestE (percent_of (bottom p) * 100)), s. split; auto.
    apply ST, TI. right; right; left. split; [lia|]. split; auto. right; left. apply fgtb_f0 in P; auto. split; auto. rewrite E, append_assoc. reflexivity.
  - split; [intros (z & X); apply PST in X; tauto|]. intros L. destruct (PT _ Fp ltac:(specialize (PP L); lra)) as (s & E & D). exists (ZnearestE (percent_of (post p) * 100)), s. split; auto.
    apply ST, TI. right; right; right. split; [lia|]. split; auto. left. rewrite E, append_assoc. reflexivity.
  - intros z X. apply TOP in X as (_ & _ & ->). apply percent_error; auto.
  - intros z X. apply BOT in X as (_ & _ & ->). apply percent_error; auto.
  - intros z X. apply PST in X as (_ & ->). apply percent_error; auto.
Qed.
