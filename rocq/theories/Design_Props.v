(** Property theorems C01-C06 (experiment_design.py). *)
From Coq Require Import ZArith NArith Reals List String Ascii Bool Lia Lra.
From Flocq Require Import Core BinarySingleNaN.
Require Import Verif.Base Verif.F64 Verif.MD5 Verif.Design_Model Verif.Design_Spec
  Verif.Design_Proofs Verif.Design_Yaml_Proofs Verif.Design_Text_Proofs.
Import ListNotations.
Open Scope string_scope.
Open Scope Z_scope.

(** C01. The constructor accepts exactly the designs meeting the documented constraints
    ([design_ok], stated over the reals), and the object it returns carries the parameters
    and the two derived counts. *)
Theorem c01_constructor_accepts_exactly_valid_designs :
  forall p d,
    mk_design p = Ok d <->
    design_ok p /\ d = mkDesignRec p (spec_n_pre p) (spec_n_post p).
Proof. exact mk_design_iff. Qed.

(** ... so an invalid combination never yields an object. *)
Theorem c01_invalid_parameters_raise :
  forall p, ~ design_ok p -> exists e, mk_design p = Err e.
Proof.
  intros p H. destruct (mk_design p) as [d|e] eqn:E; [|eauto].
  apply mk_design_iff in E as [E _]. contradiction.
Qed.

Definition ex_params : params :=
  mkParams 1000 8 "clicks" 4 true (flit 1 10) (flit 5 100) (flit 1 10) (Some 1)
    (flit 5 100) (flit 8 10) None.
Definition ex_design : design := mkDesignRec ex_params 850 680.

Example c01_accepts : mk_design ex_params = Ok ex_design.
Proof. apply mk_design_check. vm_compute. reflexivity. Qed.
Example c01_ex_ok : design_ok ex_params.
Proof. apply (proj1 (mk_design_iff ex_params ex_design)). apply c01_accepts. Qed.

Definition with_top (p : params) (x : f64) : params :=
  mkParams (n_before p) (runtime p) (metric p) (pretest p) (crossover p) x (bottom p) (post p)
    (washout p) (alpha p) (power p) (salt p).
Example c01_rejects_nan : exists e, mk_design (with_top ex_params B754_nan) = Err e.
Proof. eexists. vm_compute. reflexivity. Qed.
Example c01_rejects_sum_rounding_to_one :
  (* 0.5 + 0.49999999999999994 rounds to 1.0 *)
  exists e, mk_design (mkParams 1000000 8 "m" 4 false (flit 1 2)
    (fdiv (of_Z 9007199254740991) (of_Z 18014398509481984)) f0 None (flit 5 100) (flit 8 10) None) = Err e.
Proof. eexists. vm_compute. reflexivity. Qed.

(** C02. Derived counts. *)
Theorem c02_derived_counts :
  forall p d, mk_design p = Ok d ->
    n_pre d = n_before p - trim_count (top p) (n_before p) - trim_count (bottom p) (n_before p) /\
    n_post d = n_pre d - 2 * trim_count (post p) (n_pre d) /\
    50 < n_post d.
Proof.
  intros p d H. apply mk_design_iff in H as [[] ->]. simpl. auto.
Qed.

Theorem c02_counts_ordered :
  forall p d, mk_design p = Ok d -> 0 <= n_before p <= 2 ^ 53 ->
    50 < n_post d <= n_pre d /\ n_pre d <= n_before p.
Proof. intros p d H Hn. destruct (design_counts p d H Hn) as (A & B & C). auto. Qed.

(** rounding can move the number of trimmed items at most from the floor to the ceiling *)
Theorem c02_trim_is_floor_or_ceiling :
  forall (q : f64) n, is_finite q = true -> (0 <= B2R q <= 1)%R -> 0 <= n <= 2 ^ 53 ->
    Zfloor (B2R q * IZR n) <= trim_count q n <= Zceil (B2R q * IZR n).
Proof. intros q n F H Hn. exact (proj1 (trim_count_bounds q n F H Hn)). Qed.

(** the rounding matters: the exact floor is not always what is trimmed *)
Theorem c02_exact_floor_refuted :
  exists (q : f64) n, is_finite q = true /\ (0 <= B2R q < 1)%R /\ 0 <= n <= 2 ^ 53 /\
    trim_count q n <> Zfloor (B2R q * IZR n).
Proof.
  exists (flit 1 3), 3.
  assert (V : B2R (flit 1 3) = (6004799503160661 * / 18014398509481984)%R).
  { replace (B2R (flit 1 3)) with (SF2R radix2 (B2SF (flit 1 3))) by apply SF2R_B2SF.
    replace (B2SF (flit 1 3)) with (SpecFloat.S754_finite false 6004799503160661 (-54)) by (vm_compute; reflexivity).
    unfold SF2R, F2R. simpl. lra. }
  split. { vm_compute. reflexivity. }
  split. { rewrite V. lra. }
  split; [lia|].
  assert (E : floor_mul (flit 1 3) 3 = Ok 1) by (vm_compute; reflexivity).
  apply floor_mul_count in E. rewrite <- E.
  rewrite V. rewrite (Zfloor_imp 0); [lia|]. simpl. lra.
Qed.

Example c02_example : n_pre ex_design = 850 /\ n_post ex_design = 680.
Proof. split; reflexivity. Qed.

(** C03. YAML round trip, for every constructed design and every salt stored on it later. *)
Theorem c03_yaml_round_trip :
  forall p d s st path, mk_design p = Ok d ->
    load_from_yaml (write_to_yaml st path (set_salt d s)) path = Ok (set_salt d s).
Proof.
  intros p d s st path H. unfold load_from_yaml, write_to_yaml. simpl.
  rewrite String.eqb_refl. apply load_dump. eapply mk_design_set_salt; eauto.
Qed.

(** histories: after any sequence of writes, loading a path gives the last design written
    there; paths never written give FileNotFoundError *)
Definition writes (l : list (string * design)) : store :=
  fold_left (fun st pd => write_to_yaml st (fst pd) (snd pd)) l [].

Theorem c03_last_write_wins :
  forall before path d after,
    mk_design (par d) = Ok d -> (forall q, In q after -> fst q <> path) ->
    load_from_yaml (writes (before ++ (path, d) :: after)) path = Ok d.
Proof.
  intros before path d after Hd Ha. unfold writes. rewrite fold_left_app. simpl.
  set (st := fold_left _ before ([] : store)).
  assert (G : forall l s0, (forall q, In q l -> fst q <> path) ->
    lookup path (fold_left (fun st pd => write_to_yaml st (fst pd) (snd pd)) l s0) = lookup path s0).
  { induction l as [|q l IH]; intros s0 Hl; simpl; auto.
    rewrite IH by (intros; apply Hl; now right). simpl.
    destruct (String.eqb_spec path (fst q)); auto. exfalso. apply (Hl q); [now left|auto]. }
  unfold load_from_yaml. rewrite G by auto. simpl. rewrite String.eqb_refl. now apply load_dump.
Qed.

Theorem c03_unwritten_path_fails :
  forall l path, (forall q, In q l -> fst q <> path) ->
    load_from_yaml (writes l) path = Err (FileNotFoundError path).
Proof.
  intros l path Hl. unfold load_from_yaml, writes.
  assert (G : forall l s0, (forall q, In q l -> fst q <> path) ->
    lookup path (fold_left (fun st pd => write_to_yaml st (fst pd) (snd pd)) l s0) = lookup path s0).
  { clear. induction l as [|q l IH]; intros s0 Hl; simpl; auto.
    rewrite IH by (intros; apply Hl; now right). simpl.
    destruct (String.eqb_spec path (fst q)); auto. exfalso. apply (Hl q); [now left|auto]. }
  rewrite G by auto. reflexivity.
Qed.

Example c03_example :
  load_from_yaml (writes [("a", set_salt ex_design (Some "x")); ("b", ex_design);
                          ("a", set_salt ex_design (Some "y")); ("b", set_salt ex_design (Some "z"))]) "a"
  = Ok (set_salt ex_design (Some "y")).
Proof.
  apply (c03_last_write_wins [("a", set_salt ex_design (Some "x")); ("b", ex_design)] "a"
           (set_salt ex_design (Some "y")) [("b", set_salt ex_design (Some "z"))]).
  - eapply mk_design_set_salt. apply c01_accepts.
  - intros q [<-|[]]. discriminate.
Qed.

(** C04. Exactly the consistent documents load. *)
Theorem c04_load_iff_document_consistent :
  forall raw d,
    load_doc raw = Ok d <->
    doc_describes raw (par d) /\ mk_design (par d) = Ok d /\
    (exists v, lookup "n_items_after_pre_trim" raw = Some v /\ denotes_count v (n_pre d)) /\
    (exists v, lookup "n_items_after_post_trim" raw = Some v /\ denotes_count v (n_post d)).
Proof. exact load_doc_iff. Qed.

(** tampering with either stored count of any document makes loading fail *)
Theorem c04_tampered_counts_rejected :
  forall raw p, doc_describes raw p ->
    (forall v, lookup "n_items_after_pre_trim" raw = Some v -> ~ denotes_count v (spec_n_pre p)) \/
    (forall v, lookup "n_items_after_post_trim" raw = Some v -> ~ denotes_count v (spec_n_post p)) ->
    forall d, par d = p -> load_doc raw <> Ok d.
Proof.
  intros raw p Hd Ht d Hp H. apply load_doc_iff in H as (_ & M & (v1 & A1 & B1) & (v2 & A2 & B2)).
  apply mk_design_iff in M as [_ M]. rewrite M in B1, B2. simpl in B1, B2. rewrite Hp in B1, B2.
  destruct Ht as [Ht|Ht]; eapply Ht; eauto.
Qed.

Definition tampered : doc :=
  ("n_items_after_post_trim", YInt 681) :: remove_key "n_items_after_post_trim" (dump_design ex_design).
Example c04_example : load_doc tampered = Err (ValueError "post count mismatch") /\
                      load_doc (dump_design ex_design) = Ok ex_design.
Proof. split; [vm_compute; reflexivity|]. apply load_dump. apply c01_accepts. Qed.
Example c04_unknown_key : load_doc (("colour", YInt 1) :: dump_design ex_design) =
  Err (TypeError "unexpected keyword argument").
Proof. vm_compute. reflexivity. Qed.

(** C05. design_id *)
Theorem c05_design_id_ignores_salt :
  forall (R : FloatRepr) p d s1 s2, mk_design p = Ok d ->
    exists h, design_id (fr R) (set_salt d s1) = Ok h /\ design_id (fr R) (set_salt d s2) = Ok h.
Proof.
  intros R p d s1 s2 H. unfold design_id.
  change (set_salt (set_salt d s1) None) with (set_salt d None).
  change (set_salt (set_salt d s2) None) with (set_salt d None).
  rewrite (mk_design_set_salt _ _ None H). simpl. eauto.
Qed.

(** equal ids: same design up to the salt, or the two (different) texts collide under MD5 *)
Theorem c05_equal_ids_mean_equal_designs_or_md5_collision :
  forall (R : FloatRepr) p1 p2 d1 d2 h, mk_design p1 = Ok d1 -> mk_design p2 = Ok d2 ->
    design_id (fr R) d1 = Ok h -> design_id (fr R) d2 = Ok h ->
    set_salt d1 None = set_salt d2 None \/
    (repr_design (fr R) (set_salt d1 None) <> repr_design (fr R) (set_salt d2 None) /\
     md5_hexdigest (repr_design (fr R) (set_salt d1 None)) =
     md5_hexdigest (repr_design (fr R) (set_salt d2 None))).
Proof.
  intros R p1 p2 d1 d2 h H1 H2 E1 E2. unfold design_id in *.
  rewrite (mk_design_set_salt _ _ None H1) in E1. rewrite (mk_design_set_salt _ _ None H2) in E2.
  simpl in E1, E2.
  destruct (string_dec (repr_design (fr R) (set_salt d1 None)) (repr_design (fr R) (set_salt d2 None))) as [E|E].
  - left. apply (repr_design_inj R); auto.
  - right. split; auto. congruence.
Qed.

Theorem c05_hashed_text_determines_design :
  forall (R : FloatRepr) d1 d2, salt (par d1) = None -> salt (par d2) = None ->
    repr_design (fr R) d1 = repr_design (fr R) d2 -> d1 = d2.
Proof. exact repr_design_inj. Qed.

Example c05_example :
  exists h1 h2,
    design_id (fr toy_FloatRepr) (set_salt ex_design (Some "abc")) = Ok h1 /\
    design_id (fr toy_FloatRepr) (set_salt ex_design None) = Ok h1 /\
    design_id (fr toy_FloatRepr)
      (mkDesignRec (mkParams 1000 8 "cost" 4 true (flit 1 10) (flit 5 100) (flit 1 10) (Some 1)
         (flit 5 100) (flit 8 10) None) 850 680) = Ok h2 /\ h1 <> h2.
Proof.
  do 2 eexists. split; [vm_compute; reflexivity|]. split; [vm_compute; reflexivity|].
  split; [vm_compute; reflexivity|]. discriminate.
Qed.

(** C06. Coinflip *)
Theorem c06_coinflip_is_0_or_1 :
  forall c item, coinflip_call c item = 0 \/ coinflip_call c item = 1.
Proof.
  intros c item. unfold coinflip_call.
  generalize (Z.mod_pos_bound (Z.of_N (int_of_hex (md5_hexdigest (cf_salt c ++ item)))) 2). lia.
Qed.

(** it is the parity of the last byte of MD5(salt ++ id) *)
Theorem c06_coinflip_is_md5_parity :
  forall s item,
    coinflip_call (mkCoinflipRec s) item =
    Z.of_N (last (md5_bytes (bytes_of_string (s ++ item))) 0%N mod 2).
Proof. exact coinflip_parity. Qed.

(** so the arm only depends on the concatenation of salt and id (two runs agree) *)
Theorem c06_same_salted_id_same_arm :
  forall s1 i1 s2 i2, s1 ++ i1 = s2 ++ i2 ->
    coinflip_call (mkCoinflipRec s1) i1 = coinflip_call (mkCoinflipRec s2) i2.
Proof. intros s1 i1 s2 i2 H. unfold coinflip_call. simpl. now rewrite H. Qed.

Theorem c06_salt_rejected_iff_empty :
  forall s, (exists c, mk_coinflip s = Ok c) <-> s <> "".
Proof.
  intros [|a s]; simpl; split; intros H; try congruence.
  - destruct H; discriminate.
  - eauto.
Qed.

Theorem c06_random_salt_accepted_iff_nonempty :
  forall bytes, (exists c, coinflip_with_random_salt bytes = Ok c) <-> bytes <> [].
Proof.
  intros [|b bytes]; unfold coinflip_with_random_salt; rewrite c06_salt_rejected_iff_empty; simpl;
  split; intros H; congruence.
Qed.

Example c06_example :
  coinflip_call (mkCoinflipRec "salt") "item_1" = 0 /\ coinflip_call (mkCoinflipRec "salt") "item_2" = 1.
Proof. vm_compute. auto. Qed.

Print Assumptions c01_constructor_accepts_exactly_valid_designs.
Print Assumptions c01_invalid_parameters_raise.
Print Assumptions c02_derived_counts.
Print Assumptions c02_counts_ordered.
Print Assumptions c02_trim_is_floor_or_ceiling.
Print Assumptions c02_exact_floor_refuted.
Print Assumptions c03_yaml_round_trip.
Print Assumptions c03_last_write_wins.
Print Assumptions c03_unwritten_path_fails.
Print Assumptions c04_load_iff_document_consistent.
Print Assumptions c04_tampered_counts_rejected.
Print Assumptions c05_design_id_ignores_salt.
Print Assumptions c05_equal_ids_mean_equal_designs_or_md5_collision.
Print Assumptions c05_hashed_text_determines_design.
Print Assumptions c06_coinflip_is_0_or_1.
Print Assumptions c06_coinflip_is_md5_parity.
Print Assumptions c06_same_salted_id_same_arm.
Print Assumptions c06_salt_rejected_iff_empty.
Print Assumptions c06_random_salt_accepted_iff_nonempty.
