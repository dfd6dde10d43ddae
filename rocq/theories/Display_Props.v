(** C74: displayed p-values, intervals and colours. *)
From Coq Require Import ZArith Reals Lra Lia List String Ascii Bool.
From Flocq Require Import Core BinarySingleNaN.
Require Import Verif.Base Verif.F64 Verif.Design_Model Verif.Design_Proofs Verif.Analysis_Props2 Verif.Display_Model Verif.Display_Spec Verif.Display_Proofs.
Import ListNotations.
Open Scope string_scope.
Open Scope R_scope.

(** *** The thresholds of the code are doubles, the texts name the decimal numbers *)
Lemma rnd_self (x : f64) : rnd (B2R x) = B2R x.
Proof. apply round_generic; auto with typeclass_instances. apply generic_format_B2R. Qed.
(** n/d compared with a positive double *)
Definition above (x : f64) (n d : Z) : bool := match x with B754_finite false m (Zneg e) _ => (n * 2 ^ Zpos e <=? d * Zpos m)%Z | _ => false end.
Definition below (x : f64) (n d : Z) : bool := match x with B754_finite false m (Zneg e) _ => (d * Zpos m <=? n * 2 ^ Zpos e)%Z | _ => false end.
Lemma dyadic m e : (0 < IZR (2 ^ Zpos e))%R /\ F2R (Float radix2 (Zpos m) (Zneg e)) = IZR (Zpos m) / IZR (2 ^ Zpos e).
Proof.
  assert (P : (0 < 2 ^ Zpos e)%Z) by (apply Z.pow_pos_nonneg; lia). split; [now apply (IZR_lt 0)|].
  unfold F2R. cbn [Fnum Fexp]. change (Z.neg e) with (- Z.pos e)%Z. rewrite bpow_opp, <- (IZR_Zpower radix2) by lia. reflexivity.
Qed.
Lemma above_le x n d : (0 < d)%Z -> above x n d = true -> IZR n / IZR d <= B2R x.
Proof.
  intros D. assert (DR : 0 < IZR d) by now apply (IZR_lt 0). destruct x as [s|s| |[|] m [|e|e] H]; try discriminate. cbn [above B2R cond_Zopp]. intros Q. apply Z.leb_le in Q.
  destruct (dyadic m e) as [P ->]. apply IZR_le in Q. rewrite !mult_IZR in Q.
  apply (Rmult_le_reg_r (IZR d * IZR (2 ^ Z.pos e))); [now apply Rmult_lt_0_compat|]. field_simplify; lra.
Qed.
Lemma below_le x n d : (0 < d)%Z -> below x n d = true -> B2R x <= IZR n / IZR d.
Proof.
  intros D. assert (DR : 0 < IZR d) by now apply (IZR_lt 0). destruct x as [s|s| |[|] m [|e|e] H]; try discriminate. cbn [below B2R cond_Zopp]. intros Q. apply Z.leb_le in Q.
  destruct (dyadic m e) as [P ->]. apply IZR_le in Q. rewrite !mult_IZR in Q.
  apply (Rmult_le_reg_r (IZR d * IZR (2 ^ Z.pos e))); [now apply Rmult_lt_0_compat|]. field_simplify; lra.
Qed.
Lemma threshold_up p n d : is_finite p = true -> (0 <= n <= d)%Z -> (0 < d <= 2 ^ 53)%Z -> above (flit n d) n d = true ->
  (fltb p (flit n d) = true <-> B2R p < IZR n / IZR d).
Proof.
  intros F N D A. destruct (flit_val n d) as [FF V]; [lia|lia|lia|]. rewrite fltb_fin by auto. apply above_le in A; [|lia].
  split; intros H; [|lra]. destruct (Rlt_dec (B2R p) (IZR n / IZR d)) as [L|L]; auto.
  apply Rnot_lt_le, rnd_le in L. rewrite rnd_self, <- V in L. lra.
Qed.
Lemma threshold_down p n d : is_finite p = true -> (0 <= n <= d)%Z -> (0 < d <= 2 ^ 53)%Z -> below (flit n d) n d = true ->
  (fleb p (flit n d) = true <-> B2R p <= IZR n / IZR d).
Proof.
  intros F N D A. destruct (flit_val n d) as [FF V]; [lia|lia|lia|]. rewrite fleb_fin by auto. apply below_le in A; [|lia].
  split; intros H; [lra|]. apply rnd_le in H. rewrite rnd_self, <- V in H. exact H.
Qed.

(** *** Numbers *)
Lemma nearest_bound x m : 0 < IZR m -> Rabs (IZR (ZnearestE (x * IZR m)) / IZR m - x) <= 1 / (2 * IZR m).
Proof.
  intros M. assert (H := Znearest_half (fun x => negb (Z.even x)) (x * IZR m)).
  replace (IZR (ZnearestE (x * IZR m)) / IZR m - x) with (- ((x * IZR m - IZR (ZnearestE (x * IZR m))) * / IZR m)) by (field; lra).
  rewrite Rabs_Ropp, Rabs_mult, (Rabs_pos_eq (/ IZR m)) by (apply Rlt_le, Rinv_0_lt_compat; auto).
  replace (1 / (2 * IZR m)) with (/ 2 * / IZR m) by (field; lra). apply Rmult_le_compat_r; auto. apply Rlt_le, Rinv_0_lt_compat; auto.
Qed.
Lemma nearest_ge x m k : IZR k <= x * IZR m -> (k <= ZnearestE (x * IZR m))%Z.
Proof. intros H. rewrite <- (Zrnd_IZR ZnearestE k). apply Zrnd_le; auto with typeclass_instances. Qed.
Lemma nearest_le x m k : x * IZR m <= IZR k -> (ZnearestE (x * IZR m) <= k)%Z.
Proof. intros H. rewrite <- (Zrnd_IZR ZnearestE k). apply Zrnd_le; auto with typeclass_instances. Qed.

Lemma pow10 d : 10 ^ d = IZR (10 ^ Z.of_nat d).
Proof. rewrite <- pow_IZR. reflexivity. Qed.

(** the text of a finite number: a sign and a decimal number, the nearest one with [d] decimals *)
Lemma unsigned_text_shown d x : (0 < d)%nat -> is_finite x = true ->
  decimal d (unsigned_text d x) (Z.abs (ZnearestE (B2R x * 10 ^ d))).
Proof.
  intros D F. assert (E : unsigned_text d x = fixed_digits d (Z.abs (round_times x (10 ^ Z.of_nat d)))) by (destruct x; try discriminate; reflexivity).
  rewrite E, round_times_nearest by auto. rewrite pow10. apply fixed_digits_decimal; auto. lia.
Qed.
Lemma negative_iff x : is_finite x = true -> B2R x <> 0 -> (negative x = true <-> B2R x < 0).
Proof.
  intros F N. destruct x as [s|s| |s m e H]; try discriminate; [now elim N|].
  cbn [negative Bsign]. cbn [B2R] in *. destruct s; cbn [cond_Zopp].
  - split; auto. intros _. apply F2R_lt_0. reflexivity.
  - split; [discriminate|]. intros L. exfalso. assert (0 < F2R (Float radix2 (Z.pos m) e)) by (apply F2R_gt_0; reflexivity). lra.
Qed.

Definition mark (p alpha : f64) : string := if fltb p alpha then " (Significant)" else "".

Theorem c74_p_value_text :
  forall p alpha, is_finite p = true ->
    exists text, format_p_value p alpha = text ++ mark p alpha /\
      (is_finite alpha = true -> (mark p alpha = " (Significant)" <-> B2R p < B2R alpha)) /\
      (B2R p < 1 / 1000 -> text = "p<0.001") /\
      (1 / 1000 <= B2R p < 1 / 100 -> exists s v, text = "p=" ++ s /\ shown 3 s v /\ Rabs (v - B2R p) <= 5 / 10000 /\ 1 / 1000 <= v <= 1 / 100) /\
      (1 / 100 <= B2R p <= 99 / 100 -> exists s v, text = "p=" ++ s /\ shown 2 s v /\ Rabs (v - B2R p) <= 5 / 1000 /\ 1 / 100 <= v <= 99 / 100) /\
      (99 / 100 < B2R p -> text = "p>0.99").
Proof.
  intros p alpha F.
  assert (T1 : fltb p (flit 1 1000) = true <-> B2R p < 1 / 1000) by (apply threshold_up; auto; try lia; vm_compute; reflexivity).
  assert (T2 : fltb p (flit 1 100) = true <-> B2R p < 1 / 100) by (apply threshold_up; auto; try lia; vm_compute; reflexivity).
  assert (T3 : fleb p (flit 99 100) = true <-> B2R p <= 99 / 100) by (apply threshold_down; auto; try lia; vm_compute; reflexivity).
  set (text := if fltb p (flit 1 1000) then "p<0.001" else if fltb p (flit 1 100) then "p=" ++ fixed 3 p else if fleb p (flit 99 100) then "p=" ++ fixed 2 p else "p>0.99").
  exists text. split; [|split; [|split; [|split; [|split]]]].
  - unfold format_p_value. fold text. unfold mark. destruct (fltb p alpha); auto. induction text; cbn; congruence.
  - intros FA. unfold mark. rewrite <- (fltb_fin p alpha) by auto. destruct (fltb p alpha); split; auto; discriminate.
  - intros H. unfold text. now rewrite (proj2 T1 H).
  - intros [H H']. unfold text. destruct (fltb p (flit 1 1000)); [assert (Q := proj1 T1 eq_refl); lra|]. rewrite (proj2 T2 H').
    assert (NG : negative p = false). { destruct (negative p) eqn:E; auto. apply negative_iff in E; auto; lra. }
    assert (X := unsigned_text_shown 3 p ltac:(lia) F). assert (P3 : 10 ^ 3 = IZR 1000) by (simpl; lra). rewrite P3 in X.
    assert (GE : (1 <= ZnearestE (B2R p * IZR 1000))%Z) by (apply nearest_ge; lra).
    assert (LE : (ZnearestE (B2R p * IZR 1000) <= 10)%Z) by (apply nearest_le; lra).
    exists (fixed 3 p), (IZR (ZnearestE (B2R p * IZR 1000)) / IZR 1000). split; auto. split; [|split].
    + exists (ZnearestE (B2R p * IZR 1000)). rewrite P3. split; auto. unfold fixed. rewrite NG. rewrite Z.abs_eq in X by lia. exact X.
    + eapply Rle_trans; [apply nearest_bound; lra|lra].
    + apply IZR_le in GE, LE. lra.
  - intros [H H']. unfold text. destruct (fltb p (flit 1 1000)); [assert (Q := proj1 T1 eq_refl); lra|].
    destruct (fltb p (flit 1 100)); [assert (Q := proj1 T2 eq_refl); lra|]. rewrite (proj2 T3 H').
    assert (NG : negative p = false). { destruct (negative p) eqn:E; auto. apply negative_iff in E; auto; lra. }
    assert (X := unsigned_text_shown 2 p ltac:(lia) F). assert (P3 : 10 ^ 2 = IZR 100) by (simpl; lra). rewrite P3 in X.
    assert (GE : (1 <= ZnearestE (B2R p * IZR 100))%Z) by (apply nearest_ge; lra).
    assert (LE : (ZnearestE (B2R p * IZR 100) <= 99)%Z) by (apply nearest_le; lra).
    exists (fixed 2 p), (IZR (ZnearestE (B2R p * IZR 100)) / IZR 100). split; auto. split; [|split].
    + exists (ZnearestE (B2R p * IZR 100)). rewrite P3. split; auto. unfold fixed. rewrite NG. rewrite Z.abs_eq in X by lia. exact X.
    + eapply Rle_trans; [apply nearest_bound; lra|lra].
    + apply IZR_le in GE, LE. lra.
  - intros H. unfold text. destruct (fltb p (flit 1 1000)); [assert (Q := proj1 T1 eq_refl); lra|].
    destruct (fltb p (flit 1 100)); [assert (Q := proj1 T2 eq_refl); lra|]. destruct (fleb p (flit 99 100)); auto. assert (Q := proj1 T3 eq_refl). lra.
Qed.

(** the two inequalities are displayed exactly when they hold *)
Theorem c74_inequalities_are_truthful :
  forall p alpha, is_finite p = true ->
    (String.prefix "p<0.001" (format_p_value p alpha) = true <-> B2R p < 1 / 1000) /\
    (String.prefix "p>0.99" (format_p_value p alpha) = true <-> 99 / 100 < B2R p).
Proof.
  intros p alpha F. destruct (c74_p_value_text p alpha F) as (text & -> & _ & A & B & C & D).
  assert (PF : forall a b, String.prefix a (a ++ b) = true) by (induction a; intros b; [destruct b; reflexivity|]; cbn; destruct (ascii_dec a a); [auto|congruence]).
  split; split.
  - intros H. destruct (Rlt_dec (B2R p) (1 / 1000)) as [L|L]; auto. exfalso. destruct (Rlt_dec (B2R p) (1 / 100)) as [L2|L2].
    + destruct B as (s & v & -> & _); [lra|]. discriminate.
    + destruct (Rle_dec (B2R p) (99 / 100)) as [L3|L3]; [destruct C as (s & v & -> & _); [lra|]; discriminate|]. rewrite D in H by lra. discriminate.
  - intros H. rewrite (A H). apply PF.
  - intros H. destruct (Rlt_dec (99 / 100) (B2R p)) as [L|L]; auto. exfalso. destruct (Rlt_dec (B2R p) (1 / 1000)) as [L1|L1].
    + rewrite (A L1) in H. discriminate.
    + destruct (Rlt_dec (B2R p) (1 / 100)) as [L2|L2]; [destruct B as (s & v & -> & _)|destruct C as (s & v & -> & _)]; try lra; discriminate.
  - intros H. rewrite (D H). apply PF.
Qed.

(** a p-value that is not a number is displayed as a large one *)
Theorem c74_nan_p_value_is_shown_as_large : forall alpha, format_p_value B754_nan alpha = "p>0.99".
Proof. intros alpha. unfold format_p_value. replace (fltb B754_nan alpha) with false by (destruct alpha; reflexivity). vm_compute. reflexivity. Qed.
Theorem c74_p_above_99_percent_only_if_so_refuted : exists p alpha, String.prefix "p>0.99" (format_p_value p alpha) = true /\ ~ (is_finite p = true /\ 99 / 100 < B2R p).
Proof. exists B754_nan, (flit 5 100). rewrite c74_nan_p_value_is_shown_as_large. split; [reflexivity|]. intros [H _]. discriminate. Qed.

(** the displayed number does not tell whether the result is significant; only the mark does *)
Theorem c74_displayed_number_decides_significance_refuted :
  exists p p' alpha, format_p_value p alpha = "p=0.05 (Significant)" /\ format_p_value p' alpha = "p=0.05".
Proof.
  exists (flit 495 10000), (flit 5 100), (flit 5 100).
  split; apply String.eqb_eq; vm_compute; reflexivity.
Qed.

Theorem c74_colours :
  forall sig diff n,
    List.length (highlight_significant sig diff n) = n /\
    (forall c, In c (highlight_significant sig diff n) ->
      (c = "color:grey" <-> sig = false) /\
      (is_finite diff = true -> (c = "background-color:lightgreen" <-> sig = true /\ 0 < B2R diff) /\ (c = "background-color:pink" <-> sig = true /\ B2R diff <= 0))).
Proof.
  intros sig diff n. unfold highlight_significant. split; [destruct (negb sig), (fgtb diff f0); apply repeat_length|].
  intros c Hc. destruct f0_val as [F0 V0].
  assert (G : is_finite diff = true -> (fgtb diff f0 = true <-> 0 < B2R diff)).
  { intros F. unfold fgtb. change (fltb f0 diff = true <-> 0 < B2R diff). rewrite fltb_fin by auto. now rewrite V0. }
  destruct sig; cbn [negb] in Hc.
  - destruct (fgtb diff f0) eqn:E; apply repeat_spec in Hc; subst c; (split; [split; discriminate|]); intros F; specialize (G F); split; split; try discriminate; intros H.
    + split; auto. now apply G.
    + reflexivity.
    + destruct H as [_ H]. assert (X := proj1 G eq_refl). lra.
    + destruct H as [_ H]. assert (X := proj2 G H). discriminate.
    + split; auto. apply Rnot_lt_le. intros X. apply G in X. discriminate.
    + reflexivity.
  - apply repeat_spec in Hc. subst c. split; [split; auto|]. intros F. split; split; try discriminate; intros [H _]; discriminate.
Qed.

(** the relative interval: both bounds with [d] decimals of a percent, signs as they are, never in the wrong order *)
Definition percent_of (x : f64) : R := B2R (fmul x (of_Z 100)).
Theorem c74_relative_interval_text :
  forall d lb ub, (0 < d)%nat -> is_finite (fmul lb (of_Z 100)) = true -> is_finite (fmul ub (of_Z 100)) = true ->
    exists s1 s2 sg1 sg2 z1 z2,
      format_relative_ci d lb ub = sg1 ++ s1 ++ "% to " ++ sg2 ++ s2 ++ "%" /\
      decimal d s1 (Z.abs z1) /\ decimal d s2 (Z.abs z2) /\
      z1 = ZnearestE (percent_of lb * 10 ^ d) /\ z2 = ZnearestE (percent_of ub * 10 ^ d) /\
      (percent_of lb <> 0 -> (sg1 = "-" <-> percent_of lb < 0) /\ (sg1 = "+" <-> 0 < percent_of lb)) /\
      (percent_of ub <> 0 -> (sg2 = "-" <-> percent_of ub < 0) /\ (sg2 = "+" <-> 0 < percent_of ub)) /\
      (percent_of lb <= percent_of ub -> (z1 <= z2)%Z).
Proof.
  intros d lb ub D F1 F2. unfold format_relative_ci, signed_percent. set (y1 := fmul lb (of_Z 100)) in *. set (y2 := fmul ub (of_Z 100)) in *.
  exists (unsigned_text d y1), (unsigned_text d y2), (if negative y1 then "-" else "+"), (if negative y2 then "-" else "+"), (ZnearestE (percent_of lb * 10 ^ d)), (ZnearestE (percent_of ub * 10 ^ d)).
  assert (AA : forall a b c : string, (a ++ b) ++ c = a ++ (b ++ c)) by (induction a; cbn; congruence).
  split; [now rewrite !AA|]. split; [now apply unsigned_text_shown|]. split; [now apply unsigned_text_shown|]. split; auto. split; auto.
  assert (SG : forall y, is_finite y = true -> B2R y <> 0 -> ((if negative y then "-" else "+") = "-" <-> B2R y < 0) /\ ((if negative y then "-" else "+") = "+" <-> 0 < B2R y)).
  { intros y F N. assert (X := negative_iff y F N). destruct (negative y); split; split; try discriminate; intros H; auto.
    - now apply X.
    - assert (Y := proj1 X eq_refl). lra.
    - exfalso. assert (Y := proj2 X H). discriminate.
    - destruct (Rtotal_order (B2R y) 0) as [L|[L|L]]; [apply X in L; discriminate|contradiction|lra]. }
  split; [intros N; now apply SG|]. split; [intros N; now apply SG|]. intros L. apply Zrnd_le; auto with typeclass_instances.
  apply Rmult_le_compat_r; auto. apply pow_le. lra.
Qed.

Example c74_example :
  format_p_value (flit 2 10000) (flit 5 100) = "p<0.001 (Significant)" /\ format_p_value (flit 42 10000) (flit 5 100) = "p=0.004 (Significant)" /\
  format_p_value (flit 1 3) (flit 5 100) = "p=0.33" /\ format_p_value (flit 999 1000) (flit 5 100) = "p>0.99" /\
  format_relative_ci 2 (flit (-1) 1000) (flit 123456 1000000) = "-0.10% to +12.35%" /\
  highlight_significant true (flit 1 10) 2 = ["background-color:lightgreen"; "background-color:lightgreen"].
Proof.
  repeat split; try (apply String.eqb_eq; vm_compute; reflexivity).
Qed.

Print Assumptions c74_p_value_text.
Print Assumptions c74_inequalities_are_truthful.
Print Assumptions c74_nan_p_value_is_shown_as_large.
Print Assumptions c74_p_above_99_percent_only_if_so_refuted.
Print Assumptions c74_displayed_number_decides_significance_refuted.
Print Assumptions c74_colours.
Print Assumptions c74_relative_interval_text.
