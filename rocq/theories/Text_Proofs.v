From Coq Require Import ZArith NArith List String Ascii Bool Lia DecimalString Decimal.
From Flocq Require Import BinarySingleNaN.
Require Import Verif.Base Verif.F64 Verif.MD5 Verif.Design_Model Verif.Design_Spec Verif.Design_Proofs
  Verif.Design_Yaml_Proofs Verif.Design_Text_Proofs Verif.Display_Model Verif.Display_Spec Verif.Display_Proofs Verif.Text_Model Verif.Text_Spec.
Import ListNotations.
Open Scope string_scope.

(** *** newline-free strings *)
Lemma one_line_iff s : one_line s <-> has_char newline s = false.
Proof.
  split.
  - intros H. induction s as [|c s IH]; [reflexivity|]. simpl. apply orb_false_iff. split.
    + apply Bool.not_true_iff_false. intros E. apply Ascii.eqb_eq in E. subst c. now apply (H "" s).
    + apply IH. intros a b E. apply (H (String c a) b). now rewrite E.
  - intros H a b ->. rewrite has_char_app in H. apply orb_false_iff in H as [_ H]. discriminate.
Qed.

Definition clean (s : string) : Prop := has_char newline s = false.
Lemma clean_app a b : clean a -> clean b -> clean (a ++ b).
Proof. unfold clean. intros A B. now rewrite has_char_app, A, B. Qed.

Lemma uint_clean u : clean (NilEmpty.string_of_uint u).
Proof. unfold clean. induction u; simpl; auto. Qed.
Lemma dec_clean z : clean (dec z).
Proof. unfold dec. destruct (Z.to_int z); [apply uint_clean|]. apply (clean_app "-"); [reflexivity|apply uint_clean]. Qed.
Lemma zeros_clean n : clean (zeros n).
Proof. unfold clean. induction n; simpl; auto. Qed.
Lemma fixed_clean d x : clean (fixed d x).
Proof.
  assert (F : forall z, clean (fixed_digits d z)).
  { intros z. unfold fixed_digits. destruct d; [apply dec_clean|].
    apply clean_app; [apply dec_clean|]. apply (clean_app "."); [reflexivity|]. unfold padded. apply clean_app; [apply zeros_clean|apply dec_clean]. }
  unfold fixed. apply clean_app; [destruct (negative x); reflexivity|]. destruct x; try reflexivity; apply F.
Qed.
Lemma percent_clean x : clean (percent x).
Proof. apply clean_app; [apply fixed_clean|reflexivity]. Qed.
Lemma join_clean sep l : clean sep -> Forall clean l -> clean (join sep l).
Proof.
  intros S. induction 1 as [|x l X F IH]; [reflexivity|]. destruct l as [|y l]; [exact X|].
  cbn [join]. apply clean_app; auto. apply clean_app; auto.
Qed.
Lemma ints_clean l : clean (str_of_ints l).
Proof.
  unfold str_of_ints. apply (clean_app "["); [reflexivity|]. apply clean_app; [|reflexivity].
  apply join_clean; [reflexivity|]. apply Forall_forall. intros s H. apply in_map_iff in H as (z & <- & _). apply dec_clean.
Qed.

Lemma hex_char_clean x : (x < 16)%N -> clean (String (hex_char x) "").
Proof.
  intros H. assert (E : In x [0;1;2;3;4;5;6;7;8;9;10;11;12;13;14;15]%N).
  { assert (C : (x = 0 \/ x = 1 \/ x = 2 \/ x = 3 \/ x = 4 \/ x = 5 \/ x = 6 \/ x = 7 \/ x = 8 \/ x = 9 \/ x = 10 \/ x = 11 \/ x = 12 \/ x = 13 \/ x = 14 \/ x = 15)%N) by lia.
    simpl. intuition. }
  simpl in E. repeat (destruct E as [<-|E]; [reflexivity|]). contradiction.
Qed.
Lemma hex_clean l : Forall (fun x => (x < 256)%N) l -> clean (hex_of_bytes l).
Proof.
  induction 1 as [|x l X F IH]; [reflexivity|]. cbn [hex_of_bytes fold_right]. apply clean_app; auto. unfold hex_byte.
  apply (clean_app (String (hex_char (x / 16)) "")); apply hex_char_clean.
  - apply N.div_lt_upper_bound; lia.
  - apply N.mod_lt. lia.
Qed.
Lemma md5_clean s : clean (md5_hexdigest s).
Proof.
  apply hex_clean. unfold md5_bytes. destruct (blocks _ _ _) as [[[a b] c] d].
  assert (B : forall k x, Forall (fun y => (y < 256)%N) (le_bytes k x)).
  { intros k x. apply Forall_forall. intros y H. apply in_map_iff in H as (i & <- & _).
    change 255%N with (N.ones 8). rewrite N.land_ones. apply N.mod_lt. discriminate. }
  rewrite !Forall_app. auto.
Qed.

(** *** joining and reading lines *)
Lemma lines_of_clean s : clean s -> lines_of s = [s].
Proof.
  unfold clean. induction s as [|c s IH]; [reflexivity|]. simpl. intros H. apply orb_false_iff in H as [H1 H2].
  rewrite IH by auto. change newline with "010"%char in H1. now rewrite H1.
Qed.
Lemma lines_of_cons s t : clean s -> lines_of (s ++ String newline t) = s :: lines_of t.
Proof.
  unfold clean. induction s as [|c s IH]; [reflexivity|]. simpl. intros H. apply orb_false_iff in H as [H1 H2].
  rewrite IH by auto. change newline with "010"%char in H1. now rewrite H1.
Qed.
Lemma lines_of_join l : l <> [] -> Forall clean l -> lines_of (join (String newline "") l) = l.
Proof.
  intros N. induction 1 as [|x l X F IH]; [contradiction|]. destruct l as [|y l]; [now apply lines_of_clean|].
  cbn [join append]. rewrite lines_of_cons by auto. f_equal. apply IH. discriminate.
Qed.

Lemma design_id_ok frepr p d : mk_design p = Ok d -> design_id frepr d = Ok (md5_hexdigest (repr_design frepr (set_salt d None))).
Proof.
  intros H. unfold design_id. rewrite (mk_design_set_salt _ _ None H). reflexivity.
Qed.

Lemma numeral_dec z : (0 <= z)%Z -> numeral (dec z) z.
Proof. intros H. split; [now apply dec_nonempty|now apply dec_read]. Qed.
Lemma numeral_fun s a b : numeral s a -> numeral s b -> a = b.
Proof. intros [_ A] [_ B]. congruence. Qed.
