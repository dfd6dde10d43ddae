From Coq Require Import ZArith NArith List String Ascii Bool Lia.
From Coq Require Import DecimalString Decimal DecimalZ DecimalFacts.
From Flocq Require Import BinarySingleNaN.
Require Import Verif.Base Verif.F64 Verif.MD5 Verif.Design_Model Verif.Design_Spec
  Verif.Design_Proofs Verif.Design_Yaml_Proofs.
Import ListNotations.
Open Scope string_scope.

Lemma append_assoc (a b c : string) : (a ++ b) ++ c = a ++ (b ++ c).
Proof. induction a; simpl; congruence. Qed.

Lemma append_inj_l (a b c : string) : a ++ b = a ++ c -> b = c.
Proof. induction a; simpl; auto. intros H; inversion H; auto. Qed.

Lemma has_char_app c a b : has_char c (a ++ b) = orb (has_char c a) (has_char c b).
Proof. induction a; simpl; auto. rewrite IHa. now rewrite orb_assoc. Qed.

(** unique split at the first occurrence of a separator character *)
Lemma split_char c a b x y :
  has_char c a = false -> has_char c b = false ->
  a ++ String c x = b ++ String c y -> a = b /\ x = y.
Proof.
  revert b; induction a as [|h a IH]; intros [|k b]; simpl; intros Ha Hb H.
  - inversion H; auto.
  - inversion H; subst. rewrite Ascii.eqb_refl in Hb. discriminate.
  - inversion H; subst. rewrite Ascii.eqb_refl in Ha. discriminate.
  - apply orb_false_iff in Ha as [_ Ha], Hb as [_ Hb]. inversion H; subst.
    destruct (IH b Ha Hb H2); subst; auto.
Qed.

Lemma uint_no_comma u : has_char "," (NilEmpty.string_of_uint u) = false.
Proof. induction u; simpl; auto. Qed.
Lemma uint_no_paren u : has_char ")" (NilEmpty.string_of_uint u) = false.
Proof. induction u; simpl; auto. Qed.

Lemma dec_no_comma z : has_char "," (dec z) = false.
Proof. unfold dec. destruct (Z.to_int z); simpl; apply uint_no_comma. Qed.
Lemma dec_no_paren z : has_char ")" (dec z) = false.
Proof. unfold dec. destruct (Z.to_int z); simpl; apply uint_no_paren. Qed.

Lemma dec_inj a b : dec a = dec b -> a = b.
Proof.
  unfold dec. intros H.
  assert (Z.to_int a = Z.to_int b).
  { assert (Some (Z.to_int a) = Some (Z.to_int b)); [|congruence].
    rewrite <- !NilEmpty.isi. now rewrite H. }
  rewrite <- (DecimalZ.of_to a), <- (DecimalZ.of_to b). now f_equal.
Qed.

(** decoder of one repr_char, used only in the proof *)
Definition hexv (c : ascii) : nat := N.to_nat (hex_val c).
Definition dec_char (s : string) : option (ascii * string) :=
  match s with
  | EmptyString => None
  | String c r =>
      if Ascii.eqb c backslash then
        match r with
        | EmptyString => None
        | String e r' =>
            if Ascii.eqb e "n" then Some (ascii_of_nat 10, r')
            else if Ascii.eqb e "r" then Some (ascii_of_nat 13, r')
            else if Ascii.eqb e "t" then Some (ascii_of_nat 9, r')
            else if Ascii.eqb e "x" then
              match r' with
              | String h1 (String h2 r'') => Some (ascii_of_nat (16 * hexv h1 + hexv h2), r'')
              | _ => None
              end
            else Some (e, r')
        end
      else Some (c, r)
  end.

Lemma dec_repr_char q c s : q = quote1 \/ q = quote2 ->
  dec_char (repr_char q c ++ s) = Some (c, s).
Proof.
  intros [->| ->]; destruct c as [[] [] [] [] [] [] [] []]; reflexivity.
Qed.

Lemma repr_char_not_quote q c : q = quote1 \/ q = quote2 ->
  forall s t, repr_char q c ++ s <> String q t.
Proof.
  intros [->| ->] s t; destruct c as [[] [] [] [] [] [] [] []];
  vm_compute; intros H; discriminate H.
Qed.

Lemma repr_body_inj q a b x y : q = quote1 \/ q = quote2 ->
  repr_body q a ++ String q x = repr_body q b ++ String q y -> a = b /\ x = y.
Proof.
  intros Hq. revert b; induction a as [|c a IH]; intros [|d b]; simpl.
  - intros H. inversion H; auto.
  - rewrite append_assoc. intros H. symmetry in H. exfalso. eapply repr_char_not_quote; eauto.
  - rewrite append_assoc. intros H. exfalso. eapply repr_char_not_quote; eauto.
  - rewrite !append_assoc. intros H.
    assert (E : Some (c, repr_body q a ++ String q x) = Some (d, repr_body q b ++ String q y)).
    { rewrite <- (dec_repr_char q c) by auto. rewrite <- (dec_repr_char q d) by auto. now rewrite H. }
    inversion E; subst. destruct (IH b H2); subst; auto.
Qed.

Lemma repr_str_inj a b x y : repr_str a ++ x = repr_str b ++ y -> a = b /\ x = y.
Proof.
  unfold repr_str.
  set (qa := if andb _ _ then _ else _). set (qb := if andb (has_char quote1 b) _ then _ else _).
  assert (Ha : qa = quote1 \/ qa = quote2) by (unfold qa; destruct (andb _ _); auto).
  intros H. simpl in H. injection H as Hq H. rewrite !append_assoc in H. simpl in H.
  rewrite <- Hq in H. apply repr_body_inj in H; auto.
Qed.

Lemma bool_inj a b : repr_bool a = repr_bool b -> a = b.
Proof. destruct a, b; simpl; congruence. Qed.

Lemma dec_not_None z : dec z <> "None".
Proof.
  intros H. assert (E : NilEmpty.int_of_string "None" = Some (Z.to_int z)).
  { rewrite <- H. apply NilEmpty.isi. }
  vm_compute in E. discriminate.
Qed.

Lemma opt_int_inj a b : repr_opt_int a = repr_opt_int b -> a = b.
Proof.
  destruct a, b; simpl; intros H; auto.
  - f_equal. now apply dec_inj.
  - now apply dec_not_None in H.
  - symmetry in H. now apply dec_not_None in H.
Qed.

Lemma opt_int_no_comma a : has_char "," (repr_opt_int a) = false.
Proof. destruct a; simpl; auto using dec_no_comma. Qed.
Lemma bool_no_comma a : has_char "," (repr_bool a) = false.
Proof. destruct a; reflexivity. Qed.

Ltac peel H lem :=
  apply append_inj_l in H.

(** the text of a design without salt determines its parameters *)
Lemma repr_design_inj (R : FloatRepr) d1 d2 :
  salt (par d1) = None -> salt (par d2) = None ->
  repr_design (fr R) d1 = repr_design (fr R) d2 -> d1 = d2.
Proof.
  destruct d1 as [p1 a1 b1], d2 as [p2 a2 b2]. simpl. intros S1 S2.
  unfold repr_design. simpl par; simpl n_pre; simpl n_post.
  intros H. apply append_inj_l in H.
  apply split_char in H as [E1 H]; [|apply dec_no_comma..]. apply dec_inj in E1.
  apply (append_inj_l " runtime_weeks=") in H.
  apply split_char in H as [E2 H]; [|apply dec_no_comma..]. apply dec_inj in E2.
  apply (append_inj_l " primary_metric=") in H.
  apply repr_str_inj in H as [E3 H].
  apply append_inj_l in H.
  apply split_char in H as [E4 H]; [|apply dec_no_comma..]. apply dec_inj in E4.
  apply (append_inj_l " is_crossover=") in H.
  apply split_char in H as [E5 H]; [|apply bool_no_comma..]. apply bool_inj in E5.
  apply (append_inj_l " pre_trim_top_percentile=") in H.
  apply split_char in H as [E6 H]; [|apply fr_nocomma..]. apply fr_inj in E6.
  apply (append_inj_l " pre_trim_bottom_percentile=") in H.
  apply split_char in H as [E7 H]; [|apply fr_nocomma..]. apply fr_inj in E7.
  apply (append_inj_l " post_trim_percentile=") in H.
  apply split_char in H as [E8 H]; [|apply fr_nocomma..]. apply fr_inj in E8.
  apply (append_inj_l " crossover_washout_weeks=") in H.
  apply split_char in H as [E9 H]; [|apply opt_int_no_comma..]. apply opt_int_inj in E9.
  apply (append_inj_l " alpha=") in H.
  apply split_char in H as [E10 H]; [|apply fr_nocomma..]. apply fr_inj in E10.
  apply (append_inj_l " power=") in H.
  apply split_char in H as [E11 H]; [|apply fr_nocomma..]. apply fr_inj in E11.
  rewrite S1, S2 in H. apply (append_inj_l " coinflip_salt=None, n_items_after_pre_trim=") in H.
  apply split_char in H as [E12 H]; [|apply dec_no_comma..]. apply dec_inj in E12.
  apply (append_inj_l " n_items_after_post_trim=") in H.
  apply split_char in H as [E13 _]; [|apply dec_no_paren..]. apply dec_inj in E13.
  destruct p1, p2; simpl in *; subst; reflexivity.
Qed.

(* ------------------------------------------------------------------ *)
(** Coinflip *)
Open Scope N_scope.

Lemma hex_val_char x : x < 16 -> hex_val (hex_char x) = x.
Proof.
  intros H. assert (E : In x [0;1;2;3;4;5;6;7;8;9;10;11;12;13;14;15]).
  { assert (C : x = 0 \/ x = 1 \/ x = 2 \/ x = 3 \/ x = 4 \/ x = 5 \/ x = 6 \/ x = 7 \/ x = 8 \/ x = 9 \/ x = 10 \/ x = 11 \/ x = 12 \/ x = 13 \/ x = 14 \/ x = 15) by lia.
    simpl. intuition. }
  simpl in E. repeat (destruct E as [<-|E]; [reflexivity|]). contradiction.
Qed.

Lemma hex_of_bytes_app a b : hex_of_bytes (a ++ b) = (hex_of_bytes a ++ hex_of_bytes b)%string.
Proof. induction a; simpl; auto. now rewrite IHa. Qed.

Lemma list_ascii_app a b :
  list_ascii_of_string (a ++ b) = (list_ascii_of_string a ++ list_ascii_of_string b)%list.
Proof. induction a; simpl; congruence. Qed.

(** the number read from a hex string is congruent to its last byte *)
Lemma int_of_hex_last l x : x < 256 -> int_of_hex (hex_of_bytes (l ++ [x])) mod 2 = x mod 2.
Proof.
  intros Hx. rewrite hex_of_bytes_app. unfold int_of_hex.
  rewrite list_ascii_app, fold_left_app.
  set (acc := fold_left _ _ 0).
  change (fold_left (fun acc c => 16 * acc + hex_val c) (list_ascii_of_string (hex_of_bytes [x])) acc)
    with (16 * (16 * acc + hex_val (hex_char (x / 16))) + hex_val (hex_char (x mod 16))).
  rewrite !hex_val_char.
  - rewrite (N.div_mod x 16) at 3 by lia.
    replace (16 * (16 * acc + x / 16) + x mod 16) with (x mod 16 + (8 * (16 * acc + x / 16)) * 2) by lia.
    rewrite N.mod_add by lia.
    replace (16 * (x / 16) + x mod 16) with (x mod 16 + (8 * (x / 16)) * 2) by lia.
    rewrite N.mod_add by lia. reflexivity.
  - apply N.mod_lt. lia.
  - apply N.div_lt_upper_bound; lia.
Qed.

Lemma le_bytes_last k x : exists l y, le_bytes (S k) x = (l ++ [y])%list /\ y < 256.
Proof.
  unfold le_bytes. rewrite seq_S, map_app. simpl. eexists _, _. split; [reflexivity|].
  change 255 with (N.ones 8). rewrite N.land_ones. apply N.mod_lt. discriminate.
Qed.

Lemma md5_bytes_last l : exists r y, md5_bytes l = (r ++ [y])%list /\ y < 256.
Proof.
  unfold md5_bytes. destruct (blocks _ _ _) as [[[a b] c] d].
  destruct (le_bytes_last 3 d) as (r & y & E & Hy). rewrite E.
  exists (le_bytes 4 a ++ le_bytes 4 b ++ le_bytes 4 c ++ r)%list, y. split; auto.
Qed.

Lemma coinflip_parity s item :
  coinflip_call (mkCoinflipRec s) item =
  Z.of_N (last (md5_bytes (bytes_of_string (s ++ item))) 0 mod 2).
Proof.
  unfold coinflip_call, md5_hexdigest. simpl cf_salt.
  destruct (md5_bytes_last (bytes_of_string (s ++ item))) as (r & y & E & Hy). rewrite E.
  rewrite last_last. rewrite <- (int_of_hex_last r y Hy).
  change 2%Z with (Z.of_N 2). rewrite <- N2Z.inj_mod by discriminate. reflexivity.
Qed.

(** an inhabitant of [FloatRepr], so that theorems quantifying over it are not vacuous *)
Definition toy_repr (x : f64) : string :=
  match x with
  | B754_zero s => if s then "Z" else "z"
  | B754_infinity s => if s then "I" else "i"
  | B754_nan => "nan"
  | B754_finite s m e _ =>
      ((if s then "-" else "+") ++ dec (Z.pos m) ++ String "e" (dec e))%string
  end.

Lemma uint_no_e u : has_char "e" (NilEmpty.string_of_uint u) = false.
Proof. induction u; simpl; auto. Qed.
Lemma dec_no_e z : has_char "e" (dec z) = false.
Proof. unfold dec. destruct (Z.to_int z); simpl; apply uint_no_e. Qed.

Definition toy_FloatRepr : FloatRepr.
Proof.
  refine {| fr := toy_repr |}.
  - intros x y H.
    assert (D : forall s m e h z, toy_repr (B754_finite s m e h) = toy_repr z ->
      exists s' m' e' h', z = B754_finite s' m' e' h').
    { intros s m e h z Q. destruct z as [[]|[]| |s' m' e' h']; simpl in Q;
      try (destruct s; discriminate Q). do 4 eexists. reflexivity. }
    destruct x as [s|s| |s m e h].
    1-3: destruct y as [s'|s'| |s' m' e' h']; try (destruct s, s'; simpl in H; congruence);
      try (destruct s; simpl in H; congruence); try (destruct s'; simpl in H; congruence); auto.
    destruct (D _ _ _ _ _ H) as (s' & m' & e' & h' & ->).
    simpl in H. assert (s = s') by (destruct s, s'; simpl in H; congruence). subst s'.
    assert (Q : (dec (Z.pos m) ++ String "e" (dec e) = dec (Z.pos m') ++ String "e" (dec e'))%string).
    { destruct s; simpl in H; inversion H; auto. }
    apply split_char in Q as [Q1 Q2]; try apply dec_no_e. apply dec_inj in Q1, Q2.
    inversion Q1; subst. apply B2SF_inj. reflexivity.
  - intros [[]|[]| |[] m e h]; simpl; auto; rewrite has_char_app; simpl;
    rewrite !dec_no_comma; reflexivity.
Defined.
