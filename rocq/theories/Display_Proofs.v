(** Lemmas about the fixed-point format. *)
From Coq Require Import ZArith NArith Reals Lra Lia List String Ascii Bool DecimalString Decimal DecimalZ DecimalN DecimalFacts.
From Flocq Require Import Core BinarySingleNaN.
Require Import Verif.Base Verif.F64 Verif.Design_Model Verif.Display_Model Verif.Display_Spec.
Import ListNotations.
Open Scope string_scope.
Open Scope Z_scope.

(** *** rounding *)
Lemma div_even_nearest z k : 0 < k -> div_even z k = ZnearestE (IZR z / IZR k).
Proof.
  intros K. assert (KR : (0 < IZR k)%R) by now apply (IZR_lt 0).
  unfold Znearest. rewrite (Zfloor_div z k) by lia.
  assert (E : (IZR z / IZR k - IZR (z / k) = IZR (z mod k) / IZR k)%R).
  { rewrite (Z.div_mod z k) at 1 by lia. rewrite plus_IZR, mult_IZR. field. lra. }
  rewrite E. unfold div_even.
  assert (C : Rcompare (IZR (z mod k) / IZR k) (/ 2) = Z.compare (2 * (z mod k)) k).
  { rewrite <- (Rcompare_mult_r (2 * IZR k)) by lra. replace (IZR (z mod k) / IZR k * (2 * IZR k))%R with (IZR (2 * (z mod k))) by (rewrite mult_IZR; field; lra).
    replace (/ 2 * (2 * IZR k))%R with (IZR k) by field. apply Rcompare_IZR. }
  rewrite C.
  assert (CE : 0 < z mod k -> Zceil (IZR z / IZR k) = z / k + 1).
  { intros P. rewrite Zceil_floor_neq; rewrite (Zfloor_div z k) by lia; auto. intros Q.
    assert (X : (IZR (z mod k) / IZR k = 0)%R) by lra. assert (0 < IZR (z mod k) / IZR k)%R; [|lra].
    apply Rdiv_lt_0_compat; auto. now apply (IZR_lt 0). }
  destruct (Z.compare_spec (2 * (z mod k)) k) as [Q|Q|Q]; auto.
  - rewrite CE by lia. destruct (Z.even (z / k)); reflexivity.
  - rewrite CE by lia. reflexivity.
Qed.

Lemma round_times_nearest x m : is_finite x = true -> round_times x m = ZnearestE (B2R x * IZR m).
Proof.
  destruct x as [s|s| |s mx e H]; try discriminate; intros _; cbn [round_times B2R].
  - rewrite Rmult_0_l. symmetry. apply (Znearest_imp _ _ 0). rewrite Rminus_0_r, Rabs_R0. lra.
  - unfold F2R. cbn [Fnum Fexp]. set (z := cond_Zopp s (Z.pos mx)).
    assert (NI : forall a, ZnearestE (IZR a) = a) by (intros a; exact (Zrnd_IZR ZnearestE a)).
    destruct e as [|n|n].
    + cbn [bpow Z.pow]. rewrite Rmult_1_r, <- mult_IZR, NI. lia.
    + rewrite <- (IZR_Zpower radix2) by lia. rewrite <- !mult_IZR, NI. cbn [radix_val radix2]. change (Zpower_nat 2) with (Zpower_nat 2). unfold Zpower. lia.
    + rewrite div_even_nearest by (apply Z.pow_pos_nonneg; lia). f_equal. rewrite mult_IZR.
      change (Z.neg n) with (- Z.pos n). rewrite bpow_opp, <- (IZR_Zpower radix2) by lia. cbn [radix_val radix2].
      assert (IZR (2 ^ Z.pos n) <> 0)%R by (apply not_0_IZR; assert (0 < 2 ^ Z.pos n) by (apply Z.pow_pos_nonneg; lia); lia).
      unfold Zpower. field. auto.
Qed.

(** *** digits *)
Lemma read_acc s : forall acc v, read_digits acc s = Some v <-> exists w, read_digits 0 s = Some w /\ v = acc * 10 ^ Z.of_nat (String.length s) + w.
Proof.
  induction s as [|c s IH]; intros acc v.
  - cbn. split; [intros [= <-]; exists 0; split; auto; lia|intros (w & [= <-] & ->); f_equal; lia].
  - cbn [read_digits String.length]. destruct (digit c) as [k|]; [|split; [discriminate|intros (w & H & _); discriminate]].
    rewrite (IH (10 * acc + k) v). rewrite Nat2Z.inj_succ, Z.pow_succ_r by lia. split.
    + intros (w & Hw & ->). exists ((10 * 0 + k) * 10 ^ Z.of_nat (String.length s) + w). split; [|ring]. apply IH. exists w. auto.
    + intros (w & Hw & ->). apply IH in Hw as (u & Hu & ->). exists u. split; auto. ring.
Qed.
Lemma digit_range c k : digit c = Some k -> 0 <= k <= 9.
Proof. unfold digit. destruct (48 <=? Z.of_nat (nat_of_ascii c)) eqn:E1, (Z.of_nat (nat_of_ascii c) <=? 57) eqn:E2; cbn [andb]; intros [= <-]; lia. Qed.
Lemma read_bounds s : forall v, read_digits 0 s = Some v -> 0 <= v < 10 ^ Z.of_nat (String.length s).
Proof.
  induction s as [|c s IH]; intros v; [intros [= <-]; cbn; lia|]. cbn [read_digits String.length]. destruct (digit c) as [k|] eqn:D; [|discriminate].
  intros H. apply read_acc in H as (w & Hw & ->). apply IH in Hw. apply digit_range in D. rewrite Nat2Z.inj_succ, Z.pow_succ_r by lia. nia.
Qed.
Lemma read_app s u : forall acc, read_digits acc (s ++ u) = match read_digits acc s with Some v => read_digits v u | None => None end.
Proof. induction s as [|c s IH]; intros acc; [reflexivity|]. cbn [append read_digits]. destruct (digit c); auto. Qed.

Ltac read_digit := cbn [NilEmpty.string_of_uint read_digits]; match goal with |- context [digit ?c] => let v := eval vm_compute in (digit c) in change (digit c) with v end; cbv iota.
Lemma read_uint_acc u : forall a, read_digits (Zpos a) (NilEmpty.string_of_uint u) = Some (Zpos (Pos.of_uint_acc u a)).
Proof.
  induction u; intros a; [reflexivity|..]; read_digit; cbn [Pos.of_uint_acc]; rewrite <- IHu; f_equal; lia.
Qed.
Lemma read_uint u : read_digits 0 (NilEmpty.string_of_uint u) = Some (Z.of_uint u).
Proof.
  induction u; [reflexivity|..]; read_digit; [exact IHu|..]; unfold Z.of_uint; cbn [Pos.of_uint Z.of_N]; rewrite <- read_uint_acc; reflexivity.
Qed.
Lemma dec_read z : 0 <= z -> read_digits 0 (dec z) = Some z.
Proof.
  intros H. unfold dec. destruct z as [|q|q]; [reflexivity| |lia]. cbn [Z.to_int]. cbn [NilEmpty.string_of_int].
  rewrite read_uint. f_equal. unfold Z.of_uint. now rewrite DecimalPos.Unsigned.of_to.
Qed.
Lemma dec_nonempty z : 0 <= z -> dec z <> "".
Proof.
  intros H E. destruct z as [|q|q]; [discriminate| |lia]. assert (R := dec_read (Z.pos q) H). rewrite E in R. discriminate.
Qed.
Lemma nonzero_head q l : Pos.to_uint q <> D0 l.
Proof.
  intros E. assert (H : N.to_uint (N.pos q) = D0 l) by exact E.
  assert (X := DecimalN.Unsigned.to_of (N.to_uint (N.pos q))). rewrite DecimalN.Unsigned.of_to in X. rewrite H in X.
  unfold unorm in X. destruct (nzhead (D0 l)) eqn:EN; try discriminate.
  - assert (Z0 : D0 l = D0 Nil) by exact X. rewrite Z0 in H. assert (Y := DecimalN.Unsigned.of_to (N.pos q)). rewrite H in Y. discriminate.
  - eapply nzhead_nonzero. exact EN.
Qed.
Lemma dec_length z n : 0 <= z < 10 ^ Z.of_nat n -> (0 < n)%nat -> (String.length (dec z) <= n)%nat.
Proof.
  intros [H0 H] N. destruct z as [|q|q]; [cbn; lia| |lia].
  assert (R := dec_read (Z.pos q) H0). unfold dec in *. cbn [Z.to_int NilEmpty.string_of_int] in *. assert (NZ := nonzero_head q).
  assert (G : forall c s k, digit c = Some k -> 0 < k -> read_digits 0 (String c s) = Some (Z.pos q) -> (String.length (String c s) <= n)%nat).
  { intros c s k D K RD. cbn [read_digits] in RD. rewrite D in RD. apply read_acc in RD as (w & Hw & E). apply read_bounds in Hw. cbn [String.length].
    destruct (le_lt_dec (S (String.length s)) n) as [L|L]; auto. exfalso.
    assert (10 ^ Z.of_nat n <= 10 ^ Z.of_nat (String.length s)) by (apply Z.pow_le_mono_r; lia). nia. }
  destruct (Pos.to_uint q) as [|l|l|l|l|l|l|l|l|l|l]; [cbn in R; discriminate|exfalso; now apply (NZ l)|..];
    cbn [NilEmpty.string_of_uint] in *; eapply G; eauto; try reflexivity; lia.
Qed.

Lemma zeros_length n : String.length (zeros n) = n.
Proof. induction n; cbn; congruence. Qed.
Lemma append_length (s u : string) : String.length (s ++ u) = (String.length s + String.length u)%nat.
Proof. induction s; cbn; congruence. Qed.
Lemma read_zeros n u : read_digits 0 (zeros n ++ u) = read_digits 0 u.
Proof. induction n; auto. Qed.
Lemma padded_spec n z : 0 <= z < 10 ^ Z.of_nat n -> (0 < n)%nat -> String.length (padded n z) = n /\ read_digits 0 (padded n z) = Some z.
Proof.
  intros H N. assert (L := dec_length z n H N). unfold padded. rewrite append_length, zeros_length, read_zeros, dec_read by lia. split; auto. lia.
Qed.

Lemma fixed_digits_decimal d a : (0 < d)%nat -> 0 <= a -> decimal d (fixed_digits d a) a.
Proof.
  intros D A. unfold fixed_digits. destruct d as [|d']; [lia|]. set (d := S d') in *.
  assert (K : 0 < 10 ^ Z.of_nat d) by (apply Z.pow_pos_nonneg; lia).
  destruct (padded_spec d (a mod 10 ^ Z.of_nat d)) as [L R]; [apply Z.mod_pos_bound; lia|lia|].
  assert (Q : 0 <= a / 10 ^ Z.of_nat d) by (apply Z.div_pos; lia).
  exists (dec (a / 10 ^ Z.of_nat d)), (padded d (a mod 10 ^ Z.of_nat d)). split; auto. split; auto. split; [now apply dec_nonempty|].
  rewrite read_app, dec_read by auto. apply read_acc. exists (a mod 10 ^ Z.of_nat d). split; auto. rewrite L. rewrite (Z.div_mod a (10 ^ Z.of_nat d)) at 1 by lia. ring.
Qed.
