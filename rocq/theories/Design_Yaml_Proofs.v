From Coq Require Import ZArith NArith Reals List String Ascii Bool Lia Lra.
From Flocq Require Import Core BinarySingleNaN.
Require Import Verif.Base Verif.F64 Verif.Design_Model Verif.Design_Spec Verif.Design_Proofs.
Import ListNotations.
Open Scope string_scope.
Open Scope Z_scope.

(** set_salt keeps validity: salt plays no role in validation *)
Lemma mk_design_set_salt p d s : mk_design p = Ok d ->
  mk_design (par (set_salt d s)) = Ok (set_salt d s).
Proof.
  intros H. apply mk_design_iff in H as [H ->]. apply mk_design_iff.
  destruct H as [A1 A2 A3 A4 A5 A6 A7 A8 A9 A10 A11]. split.
  - constructor; auto.
  - reflexivity.
Qed.

Lemma mk_design_par p d : mk_design p = Ok d -> par d = p.
Proof. intros H. now apply mk_design_iff in H as [_ ->]. Qed.

Lemma load_dump d : mk_design (par d) = Ok d -> load_doc (dump_design d) = Ok d.
Proof.
  intros H. unfold load_doc.
  assert (E1 : lookup "n_items_after_pre_trim" (dump_design d) = Some (YInt (n_pre d))) by reflexivity.
  rewrite E1.
  assert (E2 : lookup "n_items_after_post_trim" (remove_key "n_items_after_pre_trim" (dump_design d)) = Some (YInt (n_post d))) by reflexivity.
  rewrite E2.
  assert (E3 : params_of_kwargs (remove_key "n_items_after_post_trim" (remove_key "n_items_after_pre_trim" (dump_design d))) = Ok (par d)).
  { destruct d as [p n1 n2]. destruct p as [a b c e f g h i [w|] j k [s|]]; reflexivity. }
  rewrite E3. cbn [bind]. rewrite H. cbn [bind yval_eq_int]. rewrite !Z.eqb_refl. reflexivity.
Qed.

Lemma lookup_remove k k' (raw : doc) : k <> k' -> lookup k (remove_key k' raw) = lookup k raw.
Proof.
  intros N. induction raw as [|[a v] raw IH]; simpl; auto.
  destruct (String.eqb_spec k' a); simpl.
  - subst. destruct (String.eqb_spec k a); [congruence|auto].
  - destruct (String.eqb k a); auto.
Qed.

Lemma in_remove k k' v (raw : doc) : In (k, v) (remove_key k' raw) <-> In (k, v) raw /\ k <> k'.
Proof.
  unfold remove_key. rewrite filter_In. simpl. rewrite negb_true_iff, String.eqb_neq. intuition.
Qed.

Lemma as_int_ok v z : as_int v = Ok z <-> v = Some (YInt z).
Proof. destruct v as [[]|]; simpl; split; intros H; inversion H; subst; auto. Qed.
Lemma as_str_ok v z : as_str v = Ok z <-> v = Some (YStr z).
Proof. destruct v as [[]|]; simpl; split; intros H; inversion H; subst; auto. Qed.
Lemma as_bool_ok v z : as_bool v = Ok z <-> v = Some (YBool z).
Proof. destruct v as [[]|]; simpl; split; intros H; inversion H; subst; auto. Qed.
Lemma as_float_ok v x : as_float v = Ok x <->
  v = Some (YFloat x) \/ exists z, v = Some (YInt z) /\ x = of_Z z.
Proof.
  destruct v as [[]|]; simpl; split; intros H; try discriminate; try (destruct H as [H|(z' & H & ->)]; discriminate).
  - inversion H; subst. right; eauto.
  - destruct H as [H|(z' & H & ->)]; [discriminate|]. now inversion H.
  - inversion H; auto.
  - destruct H as [H|(z' & H & ->)]; [|discriminate]. now inversion H.
Qed.
Lemma as_opt_int_ok v o : as_opt_int v = Ok o <->
  match o with None => v = None \/ v = Some YNull | Some a => v = Some (YInt a) end.
Proof.
  destruct v as [[]|], o; simpl; split; intros H; try discriminate; auto;
  try (destruct H; discriminate); try (inversion H; subst; auto).
Qed.
Lemma as_opt_str_ok v o : as_opt_str v = Ok o <->
  match o with None => v = None \/ v = Some YNull | Some a => v = Some (YStr a) end.
Proof.
  destruct v as [[]|], o; simpl; split; intros H; try discriminate; auto;
  try (destruct H; discriminate); try (inversion H; subst; auto).
Qed.
Lemma as_float_default_ok v dflt x : as_float_default v dflt = Ok x <->
  (v = Some (YFloat x) \/ exists z, v = Some (YInt z) /\ x = of_Z z) \/ (v = None /\ x = dflt).
Proof.
  destruct v as [v|]; unfold as_float_default.
  - rewrite as_float_ok. intuition congruence.
  - split; intros H.
    + inversion H; auto.
    + destruct H as [[H|(z & H & _)]|[_ ->]]; try discriminate. reflexivity.
Qed.

Lemma forallb_keys (raw : doc) :
  forallb (fun kv => existsb (String.eqb (fst kv)) init_keys) raw = true <->
  forall k v, In (k, v) raw -> In k init_keys.
Proof.
  rewrite forallb_forall. split.
  - intros H k v Hin. specialize (H _ Hin). apply existsb_exists in H as (x & Hx & E).
    apply String.eqb_eq in E. simpl in E. now subst.
  - intros H [k v] Hin. apply existsb_exists. exists k. split; [eauto|apply String.eqb_refl].
Qed.

Lemma params_of_kwargs_iff kw p :
  params_of_kwargs kw = Ok p <->
  (forall k v, In (k, v) kw -> In k init_keys) /\
  doc_int kw "n_items_before_trimming" (n_before p) /\
  doc_int kw "runtime_weeks" (runtime p) /\
  doc_str kw "primary_metric" (metric p) /\
  doc_int kw "pretest_weeks" (pretest p) /\
  doc_bool kw "is_crossover" (crossover p) /\
  doc_float kw "pre_trim_top_percentile" (top p) /\
  doc_float kw "pre_trim_bottom_percentile" (bottom p) /\
  doc_float kw "post_trim_percentile" (post p) /\
  doc_opt YInt kw "crossover_washout_weeks" (washout p) /\
  (doc_float kw "alpha" (alpha p) \/ (lookup "alpha" kw = None /\ alpha p = flit 5 100)) /\
  (doc_float kw "power" (power p) \/ (lookup "power" kw = None /\ power p = flit 8 10)) /\
  doc_opt YStr kw "coinflip_salt" (salt p).
Proof.
  unfold params_of_kwargs. rewrite <- forallb_keys.
  destruct (forallb _ kw); [|split; [discriminate | intros [? ?]; discriminate]].
  split.
  - intros H.
    repeat (apply bind_ok in H as (? & ? & H)). inv H. simpl.
    repeat match goal with
    | H : as_int _ = Ok _ |- _ => apply as_int_ok in H
    | H : as_str _ = Ok _ |- _ => apply as_str_ok in H
    | H : as_bool _ = Ok _ |- _ => apply as_bool_ok in H
    | H : as_float _ = Ok _ |- _ => apply as_float_ok in H
    | H : as_opt_int _ = Ok _ |- _ => apply as_opt_int_ok in H
    | H : as_opt_str _ = Ok _ |- _ => apply as_opt_str_ok in H
    | H : as_float_default _ _ = Ok _ |- _ => apply as_float_default_ok in H
    end.
    unfold doc_int, doc_str, doc_bool, doc_float, doc_opt.
    repeat (split; [assumption || reflexivity |]). assumption.
  - intros (_ & H1 & H2 & H3 & H4 & H5 & H6 & H7 & H8 & H9 & H10 & H11 & H12).
    unfold doc_int, doc_str, doc_bool, doc_float, doc_opt in *.
    apply as_int_ok in H1, H2, H4. apply as_str_ok in H3. apply as_bool_ok in H5.
    apply as_float_ok in H6, H7, H8. apply as_opt_int_ok in H9.
    apply as_float_default_ok in H10, H11. apply as_opt_str_ok in H12.
    rewrite H1, H2, H3, H4, H5, H6, H7, H8, H9. cbn [bind].
    unfold default_alpha, default_power. rewrite H10, H11, H12. simpl. destruct p; reflexivity.
Qed.

Lemma yval_eq_int_iff v z : yval_eq_int v z = true <-> denotes_count v z.
Proof.
  destruct v as [|b|z'|f|s]; simpl; try (split; [discriminate|tauto]).
  - rewrite Z.eqb_eq. intuition.
  - apply Z.eqb_eq.
  - unfold feqb. destruct (is_finite f) eqn:F.
    + destruct (of_Z_cases z) as [(A & B & C)|(A & B)].
      * rewrite Beqb_correct by auto. rewrite B. simpl andb. case Req_bool_spec; intros; split; intros; auto; try discriminate; tauto.
      * rewrite B. split; [|intuition discriminate].
        intros H. exfalso. clear - F B H. unfold Beqb, SpecFloat.SFeqb in H.
        destruct f; destruct (of_Z z); simpl in *; try discriminate; destruct s, s0; discriminate.
    + split; [discriminate | intuition discriminate].
Qed.

Lemma mk_design_n_pre_gt p d : mk_design p = Ok d -> 50 < n_post d.
Proof. intros H. apply mk_design_iff in H as [[] ->]. assumption. Qed.

Lemma load_doc_iff raw d :
  load_doc raw = Ok d <->
  doc_describes raw (par d) /\ mk_design (par d) = Ok d /\
  (exists v, lookup "n_items_after_pre_trim" raw = Some v /\ denotes_count v (n_pre d)) /\
  (exists v, lookup "n_items_after_post_trim" raw = Some v /\ denotes_count v (n_post d)).
Proof.
  unfold load_doc.
  set (raw1 := remove_key "n_items_after_pre_trim" raw).
  set (raw2 := remove_key "n_items_after_post_trim" raw1).
  assert (L1 : lookup "n_items_after_post_trim" raw1 = lookup "n_items_after_post_trim" raw)
    by (apply lookup_remove; discriminate).
  assert (L2 : forall k, In k init_keys -> lookup k raw2 = lookup k raw).
  { intros k Hk. unfold raw2, raw1. rewrite !lookup_remove; auto.
    - intros ->. simpl in Hk. intuition discriminate.
    - intros ->. simpl in Hk. intuition discriminate. }
  assert (K : (forall k v, In (k, v) raw2 -> In k init_keys) <-> (forall k v, In (k, v) raw -> In k known_keys)).
  { unfold raw2, raw1. split; intros H k v Hin.
    - destruct (string_dec k "n_items_after_pre_trim") as [->|N1]; [simpl; tauto|].
      destruct (string_dec k "n_items_after_post_trim") as [->|N2]; [simpl; tauto|].
      assert (In k init_keys). { eapply H. apply in_remove. split; [|exact N2]. apply in_remove. split; eauto. }
      simpl in *. tauto.
    - apply in_remove in Hin as [Hin N2]. apply in_remove in Hin as [Hin N1].
      apply H in Hin. simpl in *. intuition congruence. }
  assert (PK : forall p, params_of_kwargs raw2 = Ok p <-> doc_describes raw p).
  { intros p. rewrite params_of_kwargs_iff. rewrite K.
    unfold doc_int, doc_str, doc_bool, doc_float, doc_opt.
    rewrite !L2 by (simpl; tauto). split.
    - intros (H0 & H1 & H2 & H3 & H4 & H5 & H6 & H7 & H8 & H9 & H10 & H11 & H12). constructor; auto.
    - intros [H0 H1 H2 H3 H4 H5 H6 H7 H8 H9 H10 H11 H12].
      unfold doc_int, doc_str, doc_bool, doc_float, doc_opt in *. tauto. }
  rewrite L1.
  split.
  - destruct (lookup "n_items_after_pre_trim" raw) as [v1|]; [|discriminate].
    destruct (lookup "n_items_after_post_trim" raw) as [v2|]; [|discriminate].
    intros H. apply bind_ok in H as (p & H1 & H). apply PK in H1.
    apply bind_ok in H as (d' & H2 & H).
    apply bind_ok in H as ([] & H3 & H). apply raise_if_ok in H3.
    apply bind_ok in H as ([] & H4 & H). apply raise_if_ok in H4. inv H.
    apply negb_false_iff in H3, H4.
    rewrite (mk_design_par _ _ H2).
    apply yval_eq_int_iff in H3. apply yval_eq_int_iff in H4. eauto 8.
  - intros (H1 & H2 & (v1 & E1 & C1) & (v2 & E2 & C2)). rewrite E1, E2.
    apply PK in H1. rewrite H1. cbn [bind]. rewrite H2. cbn [bind].
    apply yval_eq_int_iff in C1. apply yval_eq_int_iff in C2.
    rewrite C1, C2. reflexivity.
Qed.

(** evaluation helper for concrete designs *)
Lemma mk_design_check p a b :
  match mk_design p with Ok d => andb (n_pre d =? a) (n_post d =? b) | Err _ => false end = true ->
  mk_design p = Ok (mkDesignRec p a b).
Proof.
  destruct (mk_design p) as [d|e] eqn:E; [|discriminate].
  intros H. apply andb_true_iff in H as [H1 H2]. apply Z.eqb_eq in H1, H2.
  apply mk_design_par in E. destruct d; simpl in *; subst. reflexivity.
Qed.
