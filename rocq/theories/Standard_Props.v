(** Property C23: column standardization. *)
From Coq Require Import ZArith List String Bool Lia.
Require Import Verif.Base Verif.Num Verif.Frame Verif.ListLib Verif.Standard_Model.
Import ListNotations.
Open Scope string_scope.

(** Specification: the request, as pairs (output name, input column) in output order *)
Definition request (item date : string) (clicks impressions cost conversions value : option string)
    (custom : list (string * string)) : list (string * string) :=
  let opt n o := match o with Some i => [(n, i)] | None => [] end in
  [("item_id", item); ("date", date)] ++ opt "clicks" clicks ++ opt "impressions" impressions
  ++ opt "total_cost" cost ++ opt "conversions" conversions ++ opt "total_conversion_value" value ++ custom.

(** what a column of the output must be *)
Definition parsed (std_parser : string -> parser) (parsers : list (string * parser)) (f : frame)
    (ni : string * string) (out : string * list cell) : Prop :=
  fst out = fst ni /\ exists v, get_col (snd ni) f = Some v /\
    ((exists p, In (fst ni, p) parsers /\ p v = Ok (snd out)) \/
     (~ In (fst ni) (map fst parsers) /\ In (fst ni) standard_names /\ std_parser (fst ni) v = Ok (snd out)) \/
     (~ In (fst ni) (map fst parsers) /\ ~ In (fst ni) standard_names /\ snd out = v)).

Lemma dict_get_In {B} k (l : list (string * B)) b : dict_get k l = Some b -> In (k, b) l.
Proof.
  induction l as [|[x y] l IH]; simpl; [discriminate|]. destruct (dict_get k l) as [z|].
  - intros H; inversion H; subst. auto.
  - destruct (String.eqb_spec k x); [|discriminate]. intros H; inversion H; subst. auto.
Qed.
Lemma dict_get_none {B} k (l : list (string * B)) : dict_get k l = None <-> ~ In k (map fst l).
Proof.
  induction l as [|[x y] l IH]; simpl; [tauto|]. destruct (dict_get k l) as [z|].
  - split; [discriminate|]. intros H. exfalso. assert (X : @None B = None) by reflexivity.
    assert (~ In k (map fst l)) by tauto. apply IH in H0. discriminate.
  - destruct (String.eqb_spec k x).
    + split; [discriminate|]. subst. tauto.
    + split; auto. intros _ [|]; [congruence|]. now apply IH.
Qed.
Lemma dict_get_unique {B} k b (l : list (string * B)) : NoDup (map fst l) -> In (k, b) l -> dict_get k l = Some b.
Proof.
  intros N H. destruct (dict_get k l) as [b'|] eqn:E.
  - apply dict_get_In in E. f_equal. clear - N H E. induction l as [|[x y] l IH]; [destruct H|]. simpl in N. inversion N; subst.
    destruct H as [H|H], E as [E|E]; try (inversion H; subst); try (inversion E; subst); auto.
    + exfalso. apply H2. apply (in_map fst) in E. exact E.
    + exfalso. apply H2. apply (in_map fst) in H. exact H.
  - apply dict_get_none in E. exfalso. apply E. apply (in_map fst) in H. exact H.
Qed.

Lemma in_names_iff n l : in_names n l = true <-> In n l.
Proof. apply (existsb_eqb_In _ String.eqb_eq). Qed.

Lemma occurrences_NoDup n l : NoDup l -> In n l -> occurrences n l = 1%nat.
Proof.
  unfold occurrences. induction 1 as [|x l Hx _ IH]; simpl; [tauto|].
  destruct (String.eqb_spec n x).
  - subst. intros _. simpl. rewrite filter_none; auto. intros y Hy. apply String.eqb_neq. congruence.
  - intros [->|H]; [congruence|auto].
Qed.

Lemma column_names_request item date c i co cv v custom :
  column_names [Some item; Some date; c; i; co; cv; v] custom = request item date c i co cv v custom.
Proof. unfold column_names, request. simpl. destruct c, i, co, cv, v; simpl; reflexivity. Qed.

Lemma check_parsers_iff custom parsers :
  check_parsers custom parsers = Ok tt <->
  forall n, In n (map fst parsers) -> ~ In n standard_names /\ In n (map fst custom).
Proof.
  induction parsers as [|[n p] ps IH]; cbn [check_parsers map fst]; [split; [intros _ n []|auto]|].
  destruct (in_names n standard_names) eqn:E; cbn [raise_if bind].
  - split; [discriminate|]. intros H. exfalso. apply in_names_iff in E. destruct (H n (or_introl eq_refl)). tauto.
  - assert (NS : ~ In n standard_names) by (intros H; apply in_names_iff in H; congruence).
    destruct (in_names n (map fst custom)) eqn:E'; cbn [negb raise_if bind].
    + rewrite IH. apply in_names_iff in E'. split; [intros H m [<-|Hm]; auto|intros H m Hm; apply H; now right].
    + split; [discriminate|]. intros H. destruct (H n (or_introl eq_refl)) as [_ X]. apply in_names_iff in X. congruence.
Qed.

Section S.
Variable std_parser : string -> parser.
Variables (f : frame) (item date : string) (c i co cv v : option string) (custom : list (string * string))
  (parsers : list (string * parser)).
Let inputs := [Some item; Some date; c; i; co; cv; v].
Let req := request item date c i co cv v custom.

Definition request_ok : Prop :=
  (forall n, In n (map fst custom) -> ~ In n standard_names) /\
  (forall n, In n (map fst parsers) -> In n (map fst custom)) /\
  (forall n, In n (map snd req) -> has_col n f = true).

Lemma names_NoDup : NoDup (map fst custom) -> (forall n, In n (map fst custom) -> ~ In n standard_names) ->
  NoDup (map fst req).
Proof.
  intros HN HS. unfold req, request. rewrite !map_app, !app_assoc.
  set (l := (((((map fst _ ++ _) ++ _) ++ _) ++ _) ++ _)%list).
  assert (HL : NoDup l /\ incl l standard_names).
  { unfold l. clear. destruct c, i, co, cv, v; simpl; split;
      try (intros x Hx; simpl in *; tauto);
      repeat (constructor; [simpl; intuition discriminate|]); constructor. }
  destruct HL as [H1 H2]. clearbody l. induction H1 as [|x l Hx _ IH]; simpl; auto.
  constructor.
  - rewrite in_app_iff. intros [|H]; auto. apply HS in H. apply H. apply H2. now left.
  - apply IH. intros y Hy. apply H2. now right.
Qed.

Lemma request_errors : ~ request_ok -> exists e, standardize std_parser f inputs custom parsers = Err e.
Proof.
  intros H. unfold standardize. destruct (check_custom custom) as [[]|e] eqn:E1; [|eexists; reflexivity].
  destruct (check_parsers custom parsers) as [[]|e] eqn:E2; [|eexists; reflexivity]. cbn [bind].
  unfold inputs. rewrite column_names_request. fold req.
  destruct (existsb _ req) eqn:E3; [eexists; reflexivity|]. exfalso. apply H. split; [|split].
  - intros n Hn HS. unfold check_custom in E1. apply raise_if_ok in E1. rewrite existsb_false_iff in E1.
    apply in_map_iff in Hn as (x & <- & Hx). specialize (E1 x Hx). apply in_names_iff in HS. congruence.
  - intros n Hn. now apply (proj1 (check_parsers_iff custom parsers) E2).
  - intros n Hn. apply in_map_iff in Hn as (x & <- & Hx). rewrite existsb_false_iff in E3. specialize (E3 x Hx).
    now apply negb_false_iff in E3.
Qed.

Lemma standardize_body : request_ok -> NoDup (map fst custom) -> NoDup (map snd req) ->
  standardize std_parser f inputs custom parsers =
  mapM (fun ni => match get_col (snd ni) f with
                  | None => Err (KeyError (snd ni))
                  | Some x => match parse_fun std_parser parsers (fst ni) with
                              | None => Ok (fst ni, x)
                              | Some p => let! w := p x in Ok (fst ni, w)
                              end
                  end) req.
Proof.
  intros (H1 & H2 & H3) HN HI. unfold standardize.
  assert (E1 : check_custom custom = Ok tt).
  { unfold check_custom. apply raise_if_ok. apply existsb_false_iff. intros x Hx.
    destruct (in_names (fst x) standard_names) eqn:E; auto. apply in_names_iff in E. destruct (H1 (fst x)); auto. now apply in_map. }
  assert (E2 : check_parsers custom parsers = Ok tt).
  { apply check_parsers_iff. intros n Hn. split; auto. }
  rewrite E1, E2. cbn [bind]. unfold inputs. rewrite column_names_request. fold req.
  replace (existsb (fun ni => negb (has_col (snd ni) f)) req) with false.
  2:{ symmetry. apply existsb_false_iff. intros x Hx. rewrite H3; auto. now apply in_map. }
  cbn [raise_if bind].
  assert (ND := names_NoDup HN H1).
  assert (RN : forall ni, In ni req -> dict_get (snd ni) (renamer req) = Some (fst ni)).
  { intros ni Hn. apply dict_get_unique.
    - unfold renamer. rewrite map_map. exact HI.
    - unfold renamer. apply in_map_iff. exists ni. auto. }
  assert (SEL : exists out, select_and_rename f req = Ok out /\ columns out = map fst req /\
     Forall2 (fun ni o => get_col (snd ni) f = Some (snd o) /\ fst o = fst ni) req out).
  { unfold select_and_rename. set (rr := renamer req) in *. clearbody rr.
    assert (forall l, incl l req -> exists out, mapM (fun ni => match get_col (snd ni) f with
                  | None => Err (KeyError (snd ni))
                  | Some v => Ok (match dict_get (snd ni) rr with Some n => n | None => snd ni end, v)
                  end) l = Ok out /\ columns out = map fst l /\
       Forall2 (fun ni o => get_col (snd ni) f = Some (snd o) /\ fst o = fst ni) l out).
    { induction l as [|ni l IH]; intros HL; [exists []; simpl; auto|].
      destruct IH as (out & E & C & F). { intros x Hx. apply HL. now right. }
      assert (Hin : In ni req) by (apply HL; now left).
      assert (HC : has_col (snd ni) f = true) by (apply H3; now apply in_map).
      apply has_col_get in HC as (x & Ex).
      simpl. rewrite Ex, E, (RN ni Hin). cbn [bind]. eexists. split; [reflexivity|]. simpl. split; [congruence|].
      constructor; auto. }
    apply H. apply incl_refl. }
  destruct SEL as (out & E & C & F). rewrite E. cbn [bind]. rewrite C.
  assert (KEY : forall l o, incl l req -> Forall2 (fun ni o => get_col (snd ni) f = Some (snd o) /\ fst o = fst ni) l o ->
    mapM (parse_column std_parser parsers (map fst req)) o =
    mapM (fun ni => match get_col (snd ni) f with
                  | None => Err (KeyError (snd ni))
                  | Some x => match parse_fun std_parser parsers (fst ni) with
                              | None => Ok (fst ni, x)
                              | Some p => let! w := p x in Ok (fst ni, w)
                              end
                  end) l).
  { intros l o HL FF. induction FF as [|ni [n x] l o [G N] FF IH]; [reflexivity|].
    simpl in G, N. subst n. cbn [mapM]. rewrite G, IH by (intros y Hy; apply HL; now right).
    unfold parse_column. cbn [fst snd]. destruct (parse_fun std_parser parsers (fst ni)); auto.
    rewrite occurrences_NoDup; auto. apply in_map, HL. now left. }
  now apply KEY.
Qed.

(** C23. With distinct input columns the output has exactly the requested columns in the
    requested order, each parsed from its own input column. *)
Theorem c23_output_columns out :
  NoDup (map fst custom) -> NoDup (map fst parsers) -> NoDup (map snd req) ->
  standardize std_parser f inputs custom parsers = Ok out ->
  Forall2 (parsed std_parser parsers f) req out.
Proof.
  intros HN HP HI H.
  assert (RO : request_ok).
  { destruct (standardize std_parser f inputs custom parsers) as [o|] eqn:E; [|discriminate].
    unfold standardize in E. apply bind_ok in E as ([] & E1 & E). apply bind_ok in E as ([] & E2 & E).
    unfold inputs in E. rewrite column_names_request in E. fold req in E. apply bind_ok in E as ([] & E3 & _).
    unfold check_custom in E1. apply raise_if_ok in E1, E3. rewrite existsb_false_iff in E1, E3.
    split; [|split].
    - intros n Hn HS. apply in_map_iff in Hn as (x & <- & Hx). specialize (E1 x Hx). apply in_names_iff in HS. congruence.
    - intros n Hn. now apply (proj1 (check_parsers_iff custom parsers) E2).
    - intros n Hn. apply in_map_iff in Hn as (x & <- & Hx). specialize (E3 x Hx). now apply negb_false_iff in E3. }
  rewrite standardize_body in H by auto. apply mapM_ok in H.
  clear HN HP HI RO. revert H. generalize req. intros l0 H.
  induction H as [|ni o l ls E H IH]; constructor; auto.
  destruct (get_col (snd ni) f) as [x|] eqn:G; [|discriminate]. unfold parsed.
  destruct (parse_fun std_parser parsers (fst ni)) as [p|] eqn:P.
  - apply bind_ok in E as (w & E & E'). inversion E'; subst o. cbn [fst snd]. split; auto. exists x. split; auto.
    unfold parse_fun in P. destruct (dict_get (fst ni) parsers) as [q|] eqn:D.
    + inversion P; subst q. left. exists p. split; auto. now apply dict_get_In.
    + destruct (in_names (fst ni) standard_names) eqn:I; [|discriminate]. inversion P; subst p.
      right. left. apply dict_get_none in D. apply in_names_iff in I. auto.
  - inversion E; subst o. cbn [fst snd]. split; auto. exists x. split; auto. right. right.
    unfold parse_fun in P. destruct (dict_get (fst ni) parsers) as [q|] eqn:D; [discriminate|].
    destruct (in_names (fst ni) standard_names) eqn:I; [discriminate|]. apply dict_get_none in D.
    split; auto. split; auto. intros X. apply in_names_iff in X. congruence.
Qed.

Theorem c23_raises_iff :
  NoDup (map fst custom) -> NoDup (map fst parsers) -> NoDup (map snd req) ->
  (forall n x, exists y, std_parser n x = Ok y) -> (forall n p x, In (n, p) parsers -> exists y, p x = Ok y) ->
  ((exists e, standardize std_parser f inputs custom parsers = Err e) <->
   (exists n, In n (map fst custom) /\ In n standard_names) \/
   (exists n, In n (map fst parsers) /\ ~ In n (map fst custom)) \/
   (exists n, In n (map snd req) /\ has_col n f = false)).
Proof.
  intros HN HP HI TS TP. split.
  - intros (e & E).
    destruct (existsb (fun n => in_names n standard_names) (map fst custom)) eqn:B1.
    { apply existsb_exists in B1 as (n & Hn & X). apply in_names_iff in X. left. eauto. }
    destruct (existsb (fun n => negb (in_names n (map fst custom))) (map fst parsers)) eqn:B2.
    { apply existsb_exists in B2 as (n & Hn & X). apply negb_true_iff in X. right. left. exists n. split; auto.
      intros Y. apply in_names_iff in Y. congruence. }
    destruct (existsb (fun n => negb (has_col n f)) (map snd req)) eqn:B3.
    { apply existsb_exists in B3 as (n & Hn & X). apply negb_true_iff in X. right. right. eauto. }
    exfalso. rewrite existsb_false_iff in B1, B2, B3.
    assert (RO : request_ok).
    { split; [|split].
      - intros n Hn X. apply in_names_iff in X. rewrite B1 in X; auto. discriminate.
      - intros n Hn. apply in_names_iff. specialize (B2 n Hn). now apply negb_false_iff in B2.
      - intros n Hn. specialize (B3 n Hn). now apply negb_false_iff in B3. }
    rewrite standardize_body in E by auto.
    assert (T : forall l, incl l req -> exists o, mapM (fun ni => match get_col (snd ni) f with
                  | None => Err (KeyError (snd ni))
                  | Some x => match parse_fun std_parser parsers (fst ni) with
                              | None => Ok (fst ni, x)
                              | Some p => let! w := p x in Ok (fst ni, w)
                              end
                  end) l = Ok o).
    { induction l as [|ni l IH]; intros HL; [exists []; reflexivity|].
      destruct IH as (o & Eo). { intros y Hy. apply HL. now right. }
      destruct RO as (_ & _ & R3). assert (HC : has_col (snd ni) f = true) by (apply R3, in_map, HL; now left).
      apply has_col_get in HC as (x & Ex). cbn [mapM]. rewrite Ex, Eo.
      assert (PT : forall p, parse_fun std_parser parsers (fst ni) = Some p -> exists y, p x = Ok y).
      { intros p P. unfold parse_fun in P. destruct (dict_get (fst ni) parsers) eqn:D.
        - inversion P; subst. apply dict_get_In in D. eauto.
        - destruct (in_names (fst ni) standard_names); [|discriminate]. inversion P; subst. apply TS. }
      destruct (parse_fun std_parser parsers (fst ni)) as [p|]; [|eexists; reflexivity].
      destruct (PT p eq_refl) as (y & ->). eexists. reflexivity. }
    destruct (T req (incl_refl _)) as (o & Eo). congruence.
  - intros H. apply request_errors. intros (R1 & R2 & R3). destruct H as [(n & A & B)|[(n & A & B)|(n & A & B)]].
    + exact (R1 n A B).
    + auto.
    + rewrite R3 in B; auto. discriminate.
Qed.
End S.

(** without distinct input columns a requested standard column can silently disappear: here the
    item id column is also requested as a custom column, and the output has no item_id column *)
Theorem c23_shared_input_column_keeps_both_refuted :
  exists std_parser f item date custom out,
    standardize std_parser f [Some item; Some date; None; None; None; None; None] custom [] = Ok out /\
    NoDup (map fst custom) /\ has_col "item_id" out = false.
Proof.
  exists (fun _ v => Ok v), [("sku", [CStr "a"]); ("day", [CZ 0%Z])], "sku", "day", [("label", "sku")].
  eexists. split; [reflexivity|]. split; [repeat constructor; simpl; tauto|reflexivity].
Qed.

(** input names that permute the standard names are read correctly *)
Example c23_example :
  standardize (fun _ v => Ok v) [("clicks", [CZ 1%Z]); ("impressions", [CZ 2%Z]); ("item_id", [CZ 3%Z]); ("date", [CZ 4%Z])]
    [Some "date"; Some "item_id"; Some "impressions"; Some "clicks"; None; None; None] [("x", "y")] [] = Err (ValueError "input column does not exist") /\
  standardize (fun _ v => Ok v) [("clicks", [CZ 1%Z]); ("impressions", [CZ 2%Z]); ("item_id", [CZ 3%Z]); ("date", [CZ 4%Z])]
    [Some "date"; Some "item_id"; Some "impressions"; Some "clicks"; None; None; None] [] [] =
  Ok [("item_id", [CZ 4%Z]); ("date", [CZ 3%Z]); ("clicks", [CZ 2%Z]); ("impressions", [CZ 1%Z])].
Proof. split; reflexivity. Qed.

Print Assumptions c23_output_columns.
Print Assumptions c23_raises_iff.
Print Assumptions c23_shared_input_column_keeps_both_refuted.
