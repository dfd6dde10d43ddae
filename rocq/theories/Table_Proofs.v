(** Lemmas about the formats with significant figures and thousands separators. *)
From Coq Require Import ZArith Reals Lra Lia Psatz List String Ascii Bool.
From Flocq Require Import Core BinarySingleNaN Relative.
Require Import Verif.Base Verif.F64 Verif.Design_Model Verif.Display_Model Verif.Display_Spec Verif.Display_Proofs.
Require Import Verif.Table_Model Verif.Table_Spec.
Import ListNotations.
Open Scope string_scope.
Open Scope Z_scope.

(** *** Strings *)
Lemma app_nil_r_s (s : string) : s ++ "" = s.
Proof. induction s; cbn; congruence. Qed.
Lemma has_app c s t : has c (s ++ t) = orb (has c s) (has c t).
Proof. induction s as [|a s IH]; [reflexivity|]. cbn [append has]. rewrite IH. now rewrite orb_assoc. Qed.
Lemma without_app c s t : without c (s ++ t) = without c s ++ without c t.
Proof. induction s as [|a s IH]; [reflexivity|]. cbn [append without]. rewrite IH. now destruct (Ascii.eqb a c). Qed.
Lemma without_id c s : has c s = false -> without c s = s.
Proof. induction s as [|a s IH]; [reflexivity|]. cbn [has without]. destruct (Ascii.eqb a c); [discriminate|]. intros H. now rewrite IH. Qed.
Lemma cut_none c s : has c s = false -> cut c s = (s, None).
Proof. induction s as [|a s IH]; [reflexivity|]. cbn [has cut]. destruct (Ascii.eqb a c); [discriminate|]. intros H. now rewrite IH. Qed.
Lemma cut_at c s t : has c s = false -> cut c (s ++ String c t) = (s, Some t).
Proof.
  induction s as [|a s IH]; [cbn; now rewrite Ascii.eqb_refl|]. cbn [has cut append]. destruct (Ascii.eqb a c); [discriminate|]. intros H. now rewrite IH.
Qed.
Lemma digits_only c s : digit c = None -> forall acc, read_digits acc s <> None -> has c s = false.
Proof.
  intros D. induction s as [|a s IH]; intros acc H; [reflexivity|]. cbn [read_digits has] in *. destruct (Ascii.eqb a c) eqn:E.
  - apply Ascii.eqb_eq in E. subst. rewrite D in H. now contradiction H.
  - destruct (digit a) as [v|]; [|now contradiction H]. exact (IH _ H).
Qed.
Lemma read_number_digits s v : s <> "" -> read_digits 0 s = Some v -> read_number s = Some v.
Proof. destruct s; [contradiction|auto]. Qed.
Lemma dec_has c a : digit c = None -> 0 <= a -> has c (dec a) = false.
Proof. intros D A. apply digits_only with (acc := 0); auto. rewrite dec_read; congruence. Qed.
Lemma padded_read n a : 0 <= a -> read_digits 0 (padded n a) = Some a.
Proof. intros A. unfold padded. rewrite read_zeros. now apply dec_read. Qed.
Lemma padded_nonempty n a : 0 <= a -> padded n a <> "".
Proof. intros A E. apply (f_equal String.length) in E. unfold padded in E. rewrite append_length in E. assert (D := dec_nonempty a A). destruct (dec a); [easy|cbn in E; lia]. Qed.
Lemma padded_has c n a : digit c = None -> 0 <= a -> has c (padded n a) = false.
Proof. intros D A. apply digits_only with (acc := 0); auto. rewrite padded_read; congruence. Qed.

(** *** Groups of three digits *)
Lemma grouped_by_reads fuel : forall a, 0 <= a ->
  without "," (grouped_by fuel a) <> "" /\ read_digits 0 (without "," (grouped_by fuel a)) = Some a
  /\ (forall c, digit c = None -> c <> ","%char -> has c (grouped_by fuel a) = false).
Proof.
  assert (B : forall a, 0 <= a -> without "," (dec a) <> "" /\ read_digits 0 (without "," (dec a)) = Some a
     /\ (forall c, digit c = None -> c <> ","%char -> has c (dec a) = false)).
  { intros a A. rewrite without_id by (now apply dec_has). split; [now apply dec_nonempty|]. split; [now apply dec_read|]. intros c D _. now apply dec_has. }
  induction fuel as [|k IH]; intros a A; [now apply B|]. cbn [grouped_by]. destruct (a <? 1000) eqn:L; [now apply B|].
  apply Z.ltb_ge in L. destruct (IH (a / 1000)) as (N & Rd & H); [apply Z.div_pos; lia|].
  assert (M := Z.mod_pos_bound a 1000 eq_refl).
  destruct (padded_spec 3 (a mod 1000)) as [PL PR]; [change (10 ^ Z.of_nat 3) with 1000; lia|lia|].
  rewrite !without_app. cbn [without]. change (Ascii.eqb "," ",") with true. cbv iota. cbn [append].
  rewrite (without_id "," (padded 3 _)) by (now apply padded_has). split; [|split].
  - destruct (without "," (grouped_by k (a / 1000))); [easy|discriminate].
  - rewrite read_app, Rd. apply read_acc. exists (a mod 1000). split; auto. rewrite PL. change (10 ^ Z.of_nat 3) with 1000. rewrite (Z.div_mod a 1000) at 1 by lia. lia.
  - intros c D C. rewrite !has_app, (H c D C). cbn [has]. rewrite padded_has by (auto; lia). destruct (Ascii.eqb "," c) eqn:E; auto. apply Ascii.eqb_eq in E. now subst.
Qed.
Lemma grouped_in_groups fuel : forall a, 0 <= a -> Z.log2 a <= Z.of_nat fuel -> in_groups (grouped_by fuel a).
Proof.
  assert (B : forall a, 0 <= a < 1000 -> in_groups (dec a)).
  { intros a A. apply first_group; [apply dec_nonempty; lia|apply dec_length; [change (10 ^ Z.of_nat 3) with 1000; lia|lia]|rewrite dec_read by lia; discriminate]. }
  induction fuel as [|k IH]; intros a A L.
  - apply B. destruct (Z_lt_le_dec a 2) as [C|C]; [lia|]. assert (X := Z.log2_le_mono 2 a C). change (Z.log2 2) with 1 in X. lia.
  - cbn [grouped_by]. destruct (a <? 1000) eqn:E; [apply Z.ltb_lt in E; apply B; lia|]. apply Z.ltb_ge in E.
    assert (M := Z.mod_pos_bound a 1000 eq_refl).
    destruct (padded_spec 3 (a mod 1000)) as [PL PR]; [change (10 ^ Z.of_nat 3) with 1000; lia|lia|].
    apply next_group; [|exact PL|congruence]. apply IH; [apply Z.div_pos; lia|].
    assert (Q : a / 1000 <= a / 2) by (apply Z.div_le_compat_l; lia).
    apply Z.log2_le_mono in Q. change (a / 2) with (a / 2 ^ 1) in Q. rewrite <- (Z.shiftr_div_pow2 a 1) in Q by lia. rewrite Z.log2_shiftr in Q by lia.
    assert (1 <= Z.log2 a) by (change 1 with (Z.log2 2); apply Z.log2_le_mono; lia). lia.
Qed.
Lemma grouped_groups a : 0 <= a -> in_groups (grouped a).
Proof. intros A. apply grouped_in_groups; auto. rewrite Z2Nat.id; [lia|apply Z.log2_nonneg]. Qed.
Lemma grouped_small a : 0 <= a < 1000 -> grouped a = dec a.
Proof. intros A. unfold grouped. destruct (Z.to_nat (Z.log2 a)); [reflexivity|]. cbn [grouped_by]. now replace (a <? 1000) with true by (symmetry; apply Z.ltb_lt; lia). Qed.

Lemma pow10_pos d : 0 <= d -> 0 < 10 ^ d.
Proof. intros. now apply Z.pow_pos_nonneg. Qed.
Lemma IZR_pow10 d : IZR (10 ^ Z.of_nat d) = (10 ^ d)%R.
Proof. rewrite <- pow_IZR. reflexivity. Qed.
Lemma pow10_nz d : (10 ^ d <> 0)%R.
Proof. apply pow_nonzero. lra. Qed.
Lemma grouped_digits_has c d a : 0 <= a -> digit c = None -> c <> ","%char -> c <> "."%char -> has c (grouped_digits d a) = false.
Proof.
  intros A D C P. assert (G : forall b, 0 <= b -> has c (grouped b) = false) by (intros b B; now apply (grouped_by_reads _ b B)).
  unfold grouped_digits. destruct d as [|d]; [now apply G|]. set (K := 10 ^ Z.of_nat (S d)). assert (0 < K) by (apply pow10_pos; lia).
  rewrite !has_app, G by (apply Z.div_pos; lia). cbn [has]. assert (M := Z.mod_pos_bound a K ltac:(lia)). rewrite padded_has by (auto; lia).
  destruct (Ascii.eqb "." c) eqn:E; auto. apply Ascii.eqb_eq in E. now subst.
Qed.
Lemma grouped_digits_read d a : 0 <= a -> read_mantissa (grouped_digits d a) = Some (IZR a / 10 ^ d)%R.
Proof.
  intros A.
  assert (G : forall b, 0 <= b -> has "." (grouped b) = false /\ read_number (without "," (grouped b)) = Some b).
  { intros b B. destruct (grouped_by_reads (Z.to_nat (Z.log2 b)) b B) as (N & Rd & H). split; [apply H; [reflexivity|discriminate]|now apply read_number_digits]. }
  unfold read_mantissa, grouped_digits. destruct d as [|d].
  - destruct (G a A) as [P Q]. rewrite cut_none by auto. rewrite Q. cbn. f_equal. lra.
  - set (K := 10 ^ Z.of_nat (S d)). assert (KP : 0 < K) by (apply pow10_pos; lia). assert (M := Z.mod_pos_bound a K KP).
    destruct (G (a / K)) as [P Q]; [apply Z.div_pos; lia|]. destruct (padded_spec (S d) (a mod K)) as [PL PR]; [exact M|lia|].
    change ("." ++ padded (S d) (a mod K)) with (String "." (padded (S d) (a mod K))). rewrite cut_at by auto. rewrite Q.
    rewrite (read_number_digits _ (a mod K)); [|apply padded_nonempty; lia|exact PR]. cbn [both]. f_equal. rewrite PL, <- (IZR_pow10 (S d)). fold K.
    rewrite (Z.div_mod a K) at 3 by lia. rewrite plus_IZR, mult_IZR. field. apply not_0_IZR. lia.
Qed.

(** *** Significant digits *)
Lemma digits_by_bounds fuel : forall a, 0 < a -> Z.log2 a <= Z.of_nat fuel -> 10 ^ (digits_by fuel a - 1) <= a < 10 ^ digits_by fuel a /\ 1 <= digits_by fuel a.
Proof.
  induction fuel as [|k IH]; intros a A L.
  - cbn [digits_by]. destruct (Z_lt_le_dec a 2) as [C|C]; [cbn; lia|]. assert (X := Z.log2_le_mono 2 a C). change (Z.log2 2) with 1 in X. lia.
  - cbn [digits_by]. destruct (a <? 10) eqn:E; [apply Z.ltb_lt in E; cbn; lia|]. apply Z.ltb_ge in E.
    destruct (IH (a / 10)) as [[B1 B2] B3]; [apply Z.div_str_pos; lia| |].
    + assert (Q : a / 10 <= a / 2) by (apply Z.div_le_compat_l; lia).
      apply Z.log2_le_mono in Q. change (a / 2) with (a / 2 ^ 1) in Q. rewrite <- (Z.shiftr_div_pow2 a 1) in Q by lia. rewrite Z.log2_shiftr in Q by lia.
      assert (1 <= Z.log2 a) by (change 1 with (Z.log2 2); apply Z.log2_le_mono; lia). lia.
    + set (n := digits_by k (a / 10)) in *. replace (1 + n - 1) with (Z.succ (n - 1)) by lia. rewrite Z.pow_succ_r by lia.
      replace (1 + n) with (Z.succ n) by lia. rewrite Z.pow_succ_r by lia. assert (DM := Z.div_mod a 10 ltac:(lia)). assert (M := Z.mod_pos_bound a 10 eq_refl). lia.
Qed.
Lemma digits_bounds a : 0 < a -> 10 ^ (digits a - 1) <= a < 10 ^ digits a /\ 1 <= digits a.
Proof. intros A. apply digits_by_bounds; auto. rewrite Z2Nat.id; [lia|apply Z.log2_nonneg]. Qed.

Definition magnitude (m : positive) (e : Z) : R := F2R (Float radix2 (Zpos m) e).
Lemma magnitude_pos m e : (0 < magnitude m e)%R.
Proof. now apply F2R_gt_0. Qed.
Lemma bpow10 k : 0 <= k -> bpow radix10 k = IZR (10 ^ k).
Proof. intros K. symmetry. exact (IZR_Zpower radix10 k K). Qed.
Lemma magnitude_neg m n : magnitude m (Zneg n) = (IZR (Zpos m) / IZR (2 ^ Zpos n))%R.
Proof.
  unfold magnitude, F2R. cbn [Fnum Fexp]. change (Z.neg n) with (- Z.pos n). rewrite bpow_opp, <- (IZR_Zpower radix2) by lia. reflexivity.
Qed.
Lemma magnitude_nonneg m e : 0 <= e -> magnitude m e = IZR (Zpos m * 2 ^ e).
Proof. intros E. unfold magnitude, F2R. cbn [Fnum Fexp]. rewrite <- (IZR_Zpower radix2) by lia. rewrite <- mult_IZR. reflexivity. Qed.

Lemma decimal_exponent_spec m e : -1074 <= e -> (bpow radix10 (decimal_exponent m e) <= magnitude m e < bpow radix10 (decimal_exponent m e + 1))%R.
Proof.
  intros E.
  assert (P : 0 <= e -> (bpow radix10 (digits (Z.pos m * 2 ^ e) - 1) <= magnitude m e < bpow radix10 (digits (Z.pos m * 2 ^ e) - 1 + 1))%R).
  { intros E0. rewrite magnitude_nonneg by auto. destruct (digits_bounds (Z.pos m * 2 ^ e)) as [[B1 B2] B3]; [assert (0 < 2 ^ e) by (now apply Z.pow_pos_nonneg); nia|].
    rewrite !bpow10 by lia. replace (digits (Z.pos m * 2 ^ e) - 1 + 1) with (digits (Z.pos m * 2 ^ e)) by lia. split; [now apply IZR_le|now apply IZR_lt]. }
  destruct e as [|n|n]; [apply P; lia|apply P; lia|]. clear P. cbn [decimal_exponent]. rewrite magnitude_neg.
  set (K := 2 ^ Z.pos n). assert (KP : 0 < K) by now apply Z.pow_pos_nonneg.
  set (T := 10 ^ 400). assert (KT : K <= T). { transitivity (2 ^ 1074); [apply Z.pow_le_mono_r; lia|]. now apply Z.leb_le. }
  assert (TP : 0 < T) by lia. assert (T1 : K <= Z.pos m * T) by nia. 
  assert (ET : IZR T = bpow radix10 400) by (symmetry; apply (bpow10 400); lia).
  assert (A : 0 < Z.pos m * T / K) by (apply Z.div_str_pos; lia). clearbody T.
  destruct (digits_bounds _ A) as [[B1 B2] B3]. set (k := digits _) in *.
  assert (KR : (0 < IZR K)%R) by now apply (IZR_lt 0).
  assert (EX : (IZR (Z.pos m) / IZR K = IZR (Z.pos m * T) / IZR K * bpow radix10 (-400))%R).
  { rewrite mult_IZR, ET. change (bpow radix10 (-400)) with (bpow radix10 (- (400))); rewrite (bpow_opp radix10 400). assert (NZ : bpow radix10 400 <> 0%R) by (apply Rgt_not_eq, bpow_gt_0). assert (NK : IZR K <> 0%R) by (now apply Rgt_not_eq). generalize dependent (bpow radix10 400). intros b _ NZ. field. now split. }
  rewrite EX. replace (k - 401 + 1) with (k + -400) by lia. replace (k - 401) with (k - 1 + -400) by lia. rewrite !bpow_plus.
  assert (BP := bpow_gt_0 radix10 (-400)). rewrite (bpow10 (k - 1)), (bpow10 k) by lia.
  assert (DM := Z.div_mod (Z.pos m * T) K ltac:(lia)). assert (M := Z.mod_pos_bound (Z.pos m * T) K KP).
  split; [apply Rmult_le_compat_r; [lra|]|apply Rmult_lt_compat_r; [lra|]].
  - apply Rmult_le_reg_r with (IZR K); auto. unfold Rdiv. rewrite Rmult_assoc, Rinv_l, Rmult_1_r by lra. rewrite <- mult_IZR. apply IZR_le. nia.
  - apply Rmult_lt_reg_r with (IZR K); auto. unfold Rdiv. rewrite Rmult_assoc, Rinv_l, Rmult_1_r by lra. rewrite <- mult_IZR. apply IZR_lt. nia.
Qed.

Lemma nearest_IZR a : ZnearestE (IZR a) = a.
Proof. exact (Zrnd_IZR ZnearestE a). Qed.
Lemma nearest_mono x y : (x <= y)%R -> ZnearestE x <= ZnearestE y.
Proof. exact (Zrnd_le ZnearestE x y). Qed.
Lemma round_scaled_spec m e s : round_scaled m e s = ZnearestE (magnitude m e * bpow radix10 s).
Proof.
  assert (NS : s < 0 -> bpow radix10 s = (/ IZR (10 ^ (- s)))%R).
  { intros S. replace s with (- - s) at 1 by lia. rewrite bpow_opp, bpow10 by lia. reflexivity. }
  assert (NP : s < 0 -> 0 < 10 ^ (- s)) by (intros; apply pow10_pos; lia).
  assert (P : 0 <= e -> (if 0 <=? s then Z.pos m * 2 ^ e * 10 ^ s else div_even (Z.pos m * 2 ^ e) (10 ^ - s)) = ZnearestE (magnitude m e * bpow radix10 s)).
  { intros E. rewrite magnitude_nonneg by auto. destruct (0 <=? s) eqn:S; [apply Z.leb_le in S|apply Z.leb_gt in S].
    - rewrite bpow10 by auto. rewrite <- mult_IZR. now rewrite nearest_IZR.
    - rewrite NS by auto. rewrite div_even_nearest by auto. reflexivity. }
  destruct e as [|n|n]; [apply P; lia|apply P; lia|]. clear P. cbn [round_scaled]. rewrite magnitude_neg.
  set (K := 2 ^ Z.pos n). assert (KP : 0 < K) by now apply Z.pow_pos_nonneg. assert (KR : (0 < IZR K)%R) by now apply (IZR_lt 0).
  destruct (0 <=? s) eqn:S; [apply Z.leb_le in S|apply Z.leb_gt in S].
  - rewrite bpow10 by auto. rewrite div_even_nearest by auto. f_equal. rewrite mult_IZR. field. lra.
  - rewrite NS by auto. specialize (NP S). rewrite div_even_nearest by (apply Z.mul_pos_pos; lia). f_equal. rewrite mult_IZR.
    assert (0 < IZR (10 ^ - s))%R by now apply (IZR_lt 0). field. split; lra.
Qed.

Lemma significant_digits_spec p m e : 0 < p -> -1074 <= e ->
  let '(r, k) := significant_digits p m e in
  10 ^ (p - 1) <= r < 10 ^ p /\ to_figures p (magnitude m e) = (IZR r * bpow radix10 (k + 1 - p))%R.
Proof.
  intros P E. unfold significant_digits. set (k := decimal_exponent m e). assert (DE := decimal_exponent_spec m e E). fold k in DE.
  assert (MP := magnitude_pos m e).
  assert (MG : mag radix10 (magnitude m e) = (k + 1) :> Z).
  { apply mag_unique. rewrite Rabs_pos_eq by lra. replace (k + 1 - 1) with k by lia. exact DE. }
  assert (RD : to_figures p (magnitude m e) = (IZR (round_scaled m e (p - 1 - k)) * bpow radix10 (k + 1 - p))%R).
  { unfold to_figures, round, scaled_mantissa, cexp. rewrite MG. unfold FLX_exp, F2R. cbn [Fnum Fexp]. rewrite round_scaled_spec.
    replace (- (k + 1 - p)) with (p - 1 - k) by lia. reflexivity. }
  assert (B : 10 ^ (p - 1) <= round_scaled m e (p - 1 - k) <= 10 ^ p).
  { rewrite round_scaled_spec. rewrite <- (nearest_IZR (10 ^ (p - 1))), <- (nearest_IZR (10 ^ p)). rewrite <- (bpow10 (p - 1)), <- (bpow10 p) by lia.
    assert (BP := bpow_gt_0 radix10 (p - 1 - k)).
    split; apply nearest_mono.
    - replace (p - 1) with (k + (p - 1 - k)) at 1 by lia. rewrite bpow_plus. apply Rmult_le_compat_r; lra.
    - replace p with ((k + 1) + (p - 1 - k)) at 2 by lia. rewrite bpow_plus. apply Rmult_le_compat_r; lra. }
  destruct (Z.eqb_spec (round_scaled m e (p - 1 - k)) (10 ^ p)) as [Q|Q].
  - assert (10 ^ p = 10 * 10 ^ (p - 1)) by (rewrite <- Z.pow_succ_r by lia; f_equal; lia). assert (0 < 10 ^ (p - 1)) by (apply pow10_pos; lia).
    split; [lia|]. rewrite RD, Q. rewrite <- (bpow10 p), <- (bpow10 (p - 1)) by lia. rewrite <- !bpow_plus. f_equal. lia.
  - split; [lia|]. exact RD.
Qed.

Lemma strip_spec d : forall a, 0 <= a -> let '(d', a') := strip d a in (d' <= d)%nat /\ 0 <= a' <= a /\ (IZR a' / 10 ^ d' = IZR a / 10 ^ d)%R.
Proof.
  induction d as [|d IH]; intros a A; cbn [strip]; [split; auto; split; [lia|reflexivity]|].
  destruct (Z.eqb_spec (a mod 10) 0) as [E|E]; [|split; auto; split; [lia|reflexivity]].
  assert (Q : 0 <= a / 10) by (apply Z.div_pos; lia). specialize (IH (a / 10) Q). destruct (strip d (a / 10)) as [d' a'].
  destruct IH as (H1 & H2 & H3). assert (DM := Z.div_mod a 10 ltac:(lia)). split; [lia|]. split; [lia|]. rewrite H3.
  replace (IZR a) with (10 * IZR (a / 10))%R by (rewrite <- mult_IZR; f_equal; lia). cbn [pow]. field. apply pow10_nz.
Qed.
(** no zero at the end of the decimals *)
Lemma strip_minimal d : forall a, let '(d', a') := strip d a in d' = O \/ a' mod 10 <> 0.
Proof. induction d as [|d IH]; intros a; cbn [strip]; [now left|]. destruct (Z.eqb_spec (a mod 10) 0) as [E|E]; [apply IH|now right]. Qed.

Lemma exponent_reads e : read_exponent (exponent_text e) = Some e.
Proof.
  unfold exponent_text. assert (R : read_number (padded 2 (Z.abs e)) = Some (Z.abs e)).
  { apply read_number_digits; [apply padded_nonempty|apply padded_read]; lia. }
  destruct (Z.ltb_spec e 0); cbn [append read_exponent]; rewrite R; cbn [option_map]; f_equal; lia.
Qed.

(** *** The whole texts *)
Lemma bounded_exponent s m e (H : SpecFloat.bounded 53 1024 m e = true) : -1074 <= e /\ B2R (B754_finite s m e H : f64) = (if s then - magnitude m e else magnitude m e)%R.
Proof.
  split.
  - apply andb_prop in H as [H _]. apply Zeq_bool_eq in H. unfold SpecFloat.fexp, SpecFloat.emin in H. lia.
  - cbn [B2R]. destruct s; cbn [cond_Zopp]; unfold magnitude; [|reflexivity]. rewrite <- F2R_Zopp. reflexivity.
Qed.
Lemma to_figures_0 p : to_figures p 0 = 0%R.
Proof. apply round_0. typeclasses eauto. Qed.
Lemma to_figures_opp p x : to_figures p (- x) = (- to_figures p x)%R.
Proof. apply round_NE_opp. Qed.
Lemma to_decimals_opp p x : to_decimals p (- x) = (- to_decimals p x)%R.
Proof. apply round_NE_opp. Qed.

Definition figures (n : nat) : Z := Z.max 1 (Z.of_nat n).
(** the unsigned text *)
Lemma general_unsigned n m e (p := figures n) : -1074 <= e ->
  let '(r, e10) := significant_digits p m e in
  read_unsigned (if andb (-4 <=? e10) (e10 <? p)
      then let '(d, a) := strip (Z.to_nat (p - 1 - e10)) r in grouped_digits d a
      else let '(d, a) := strip (Z.to_nat (p - 1)) r in grouped_digits d a ++ "e" ++ exponent_text e10) = Some (to_figures p (magnitude m e)).
Proof.
  intros E. assert (P : 0 < p) by (unfold p, figures; lia). assert (S := significant_digits_spec p m e P E). destruct (significant_digits p m e) as [r k].
  destruct S as [[B1 B2] V]. assert (0 < 10 ^ (p - 1)) by (apply pow10_pos; lia). assert (R0 : 0 <= r) by lia.
  rewrite V. unfold read_unsigned. destruct (andb (-4 <=? k) (k <? p)) eqn:C.
  - apply andb_prop in C as [C1 C2]. apply Z.leb_le in C1. apply Z.ltb_lt in C2. assert (S := strip_spec (Z.to_nat (p - 1 - k)) r R0).
    destruct (strip _ r) as [d a]. destruct S as (S1 & S2 & S3). rewrite cut_none by (apply grouped_digits_has; [lia|reflexivity|discriminate|discriminate]).
    rewrite grouped_digits_read by lia. f_equal. rewrite S3. replace (k + 1 - p) with (- (p - 1 - k)) by lia. rewrite bpow_opp, bpow10 by lia.
    rewrite <- IZR_pow10, Z2Nat.id by lia. reflexivity.
  - clear C. assert (S := strip_spec (Z.to_nat (p - 1)) r R0). destruct (strip _ r) as [d a]. destruct S as (S1 & S2 & S3).
    change ("e" ++ exponent_text k) with (String "e" (exponent_text k)). rewrite cut_at by (apply grouped_digits_has; [lia|reflexivity|discriminate|discriminate]).
    rewrite grouped_digits_read, exponent_reads by lia. cbn [both]. f_equal. rewrite S3. replace (k + 1 - p) with (k + - (p - 1)) by lia. rewrite bpow_plus, bpow_opp, (bpow10 (p - 1)) by lia.
    rewrite <- IZR_pow10, Z2Nat.id by lia. unfold Rdiv. ring.
Qed.

Lemma general_reads n x : is_finite x = true -> read_signed (general n x) = Some (to_figures (figures n) (B2R x)).
Proof.
  intros F. destruct x as [s|s| |s m e H]; try discriminate F.
  - cbn [B2R]. rewrite to_figures_0. unfold general, plus_or_minus. cbn [negative Bsign]. destruct s; cbn [append read_signed]; change (read_unsigned "0") with (Some 0%R); cbn [option_map]; [now rewrite Ropp_0|reflexivity].
  - destruct (bounded_exponent s m e H) as [E V]. rewrite V. unfold general, plus_or_minus. cbn [negative Bsign]. cbv zeta. fold (figures n).
    assert (G := general_unsigned n m e E). cbv zeta in G. destruct (significant_digits (figures n) m e) as [r k].
    match type of G with read_unsigned ?t = _ => set (u := t) in *; clearbody u end. destruct s; cbn [append read_signed]; rewrite G; cbn [option_map]; [now rewrite to_figures_opp|reflexivity].
Qed.

Lemma to_decimals_value d x : to_decimals d x = (IZR (ZnearestE (x * 10 ^ d)) / 10 ^ d)%R.
Proof.
  unfold to_decimals, round, scaled_mantissa, cexp, FIX_exp, F2R. cbn [Fnum Fexp]. rewrite Z.opp_involutive, bpow_opp, bpow10 by lia. now rewrite IZR_pow10.
Qed.
Lemma signed_grouped_reads d x : is_finite x = true -> read_signed (signed_grouped d x) = Some (to_decimals d (B2R x)).
Proof.
  intros F. assert (N := round_times_nearest x (10 ^ Z.of_nat d) F). rewrite IZR_pow10 in N.
  assert (V : to_decimals d (B2R x) = (IZR (round_times x (10 ^ Z.of_nat d)) / 10 ^ d)%R) by (rewrite N; apply to_decimals_value).
  assert (U : forall z, 0 <= z -> read_unsigned (grouped_digits d z) = Some (IZR z / 10 ^ d)%R).
  { intros z Z0. unfold read_unsigned. rewrite cut_none by (apply grouped_digits_has; [lia|reflexivity|discriminate|discriminate]). now apply grouped_digits_read. }
  assert (SG : (negative x = true -> round_times x (10 ^ Z.of_nat d) <= 0) /\ (negative x = false -> 0 <= round_times x (10 ^ Z.of_nat d))).
  { assert (T : (0 < 10 ^ d)%R) by (apply pow_lt; lra). rewrite N. destruct x as [s|s| |s m e H]; try discriminate F.
    - cbn [B2R]. rewrite Rmult_0_l. rewrite (nearest_IZR 0). lia.
    - destruct (bounded_exponent s m e H) as [_ ->]. assert (MP := magnitude_pos m e). cbn [negative Bsign].
      split; intros ->; rewrite <- (nearest_IZR 0); apply nearest_mono; nra. }
  rewrite V. set (z := round_times x (10 ^ Z.of_nat d)) in *.
  assert (W : signed_grouped d x = plus_or_minus x ++ grouped_digits d (Z.abs z)) by (destruct x; try discriminate F; reflexivity).
  rewrite W. unfold plus_or_minus. destruct (negative x).
  - cbn [append read_signed]. rewrite U by lia. cbn [option_map]. f_equal. destruct SG as [SG _]. specialize (SG eq_refl). rewrite Z.abs_neq by lia. rewrite opp_IZR. unfold Rdiv. ring.
  - cbn [append read_signed]. destruct SG as [_ SG]. specialize (SG eq_refl). rewrite U by lia. now rewrite Z.abs_eq by lia.
Qed.
