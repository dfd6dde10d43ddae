(** Lemmas on the preparation of raw data frames. *)
From Coq Require Import ZArith Reals List String Bool Lia.
From Flocq Require Import Core BinarySingleNaN.
Require Import Verif.Base Verif.Num Verif.Frame Verif.F64 Verif.ListLib Verif.Design_Model Verif.Standard_Model Verif.Standard_Props
  Verif.Experiment_Props Verif.Periods_Model Verif.Rows_Model Verif.Checks_Model Verif.Pipeline_Model Verif.Designer_Model Verif.Entry_Model Verif.Entry_Spec.
Import ListNotations.
Open Scope string_scope.
Open Scope list_scope.
Open Scope Z_scope.

Lemma get_col_combine (l : frame) n v : NoDup (map fst l) -> In (n, v) l -> get_col n l = Some v.
Proof.
  induction l as [|[x w] l IH]; intros N H; [destruct H|]. cbn [get_col map fst] in *. inversion N; subst.
  destruct (String.eqb_spec n x).
  - subst. destruct H as [H|H]; [congruence|]. exfalso. apply H2. change x with (fst (x, v)). now apply in_map.
  - destruct H as [H|H]; [congruence|]. auto.
Qed.

Section S.
Variable std_parser : string -> parser.
Definition convert (parsers : list (string * parser)) (n : string) (c : list cell) : result (list cell) :=
  match parse_fun std_parser parsers n with Some p => p c | None => Ok c end.

(** what the standardization of readable columns returns *)
Lemma standardize_reads f item date c i co cv v custom parsers :
  request_ok f item date c i co cv v custom parsers -> NoDup (map fst custom) -> NoDup (map snd (request item date c i co cv v custom)) ->
  (forall ni, In ni (request item date c i co cv v custom) -> exists x w, get_col (snd ni) f = Some x /\ convert parsers (fst ni) x = Ok w) ->
  exists out, standardize std_parser f [Some item; Some date; c; i; co; cv; v] custom parsers = Ok out /\ columns out = map fst (request item date c i co cv v custom) /\
    forall ni x w, In ni (request item date c i co cv v custom) -> get_col (snd ni) f = Some x -> convert parsers (fst ni) x = Ok w -> get_col (fst ni) out = Some w.
Proof.
  intros RO N1 N2 H. assert (NF : NoDup (map fst (request item date c i co cv v custom))).
  { destruct RO as (R1 & _). now apply names_NoDup. }
  rewrite standardize_body by assumption.
  revert NF H. generalize (request item date c i co cv v custom). clear RO N1 N2. intros l NF H.
  assert (KEY : exists out, mapM (fun ni => match get_col (snd ni) f with
                  | None => Err (KeyError (snd ni))
                  | Some x => match parse_fun std_parser parsers (fst ni) with
                              | None => Ok (fst ni, x)
                              | Some p => let! w := p x in Ok (fst ni, w)
                              end
                  end) l = Ok out /\ columns out = map fst l /\
     (forall ni x w, In ni l -> get_col (snd ni) f = Some x -> convert parsers (fst ni) x = Ok w -> In (fst ni, w) out)).
  { clear NF. induction l as [|a l IH]; [exists []; repeat split; intros; contradiction|].
    destruct IH as (out & E & C & G); [intros; apply H; now right|].
    destruct (H a (or_introl eq_refl)) as (x & w & Ex & Ew). exists ((fst a, w) :: out). cbn [mapM]. rewrite Ex, E. split; [|split].
    - unfold convert in Ew. destruct (parse_fun std_parser parsers (fst a)); cbn [bind].
      + rewrite Ew. reflexivity.
      + congruence.
    - cbn. f_equal. exact C.
    - intros ni x' w' [<-|Hn] E1 E2; [left; congruence|right; eauto]. }
  destruct KEY as (out & E & C & G). exists out. split; [exact E|]. split; [exact C|].
  intros ni x w Hn E1 E2. apply get_col_combine; [|eauto]. change (map fst out) with (columns out). now rewrite C.
Qed.

(** a successful standardization has read the columns named in the request *)
Lemma standardize_ok_request f item date c i co cv v custom parsers out :
  standardize std_parser f [Some item; Some date; c; i; co; cv; v] custom parsers = Ok out ->
  request_ok f item date c i co cv v custom parsers.
Proof.
  intros E. destruct (standardize std_parser f [Some item; Some date; c; i; co; cv; v] custom parsers) as [o|] eqn:E0; [|discriminate].
  unfold standardize in E0. apply bind_ok in E0 as ([] & E1 & E0). apply bind_ok in E0 as ([] & E2 & E0).
  rewrite column_names_request in E0. apply bind_ok in E0 as ([] & E3 & _).
  unfold check_custom in E1. apply raise_if_ok in E1, E3. rewrite existsb_false_iff in E1, E3.
  split; [|split].
  - intros n Hn HS. apply in_map_iff in Hn as (x & <- & Hx). specialize (E1 x Hx). apply in_names_iff in HS. congruence.
  - intros n Hn. now apply (proj1 (check_parsers_iff custom parsers) E2).
  - intros n Hn. apply in_map_iff in Hn as (x & <- & Hx). specialize (E3 x Hx). now apply negb_false_iff in E3.
Qed.

(** inputs named twice make the parsing fail, if every requested column has a parse function *)
Lemma occurrences_In n l : In n l -> occurrences n l <> 0%nat.
Proof.
  unfold occurrences. intros H E. apply length_zero_iff_nil in E. assert (In n (filter (String.eqb n) l)) by (apply filter_In; split; [assumption|apply String.eqb_refl]).
  rewrite E in H0. destruct H0.
Qed.
Lemma occurrences_one_NoDup (g : string -> string) : forall l, (forall n, In n (map g l) -> occurrences n (map g l) = 1%nat) -> NoDup l.
Proof.
  induction l as [|a l IH]; intros H; constructor.
  - intros Ha. specialize (H (g a) (or_introl eq_refl)). unfold occurrences in H. cbn [map filter] in H. rewrite String.eqb_refl in H. cbn [List.length] in H.
    assert (X := occurrences_In (g a) (map g l) (in_map g _ _ Ha)). unfold occurrences in X. lia.
  - apply IH. intros n Hn. assert (X := H n (or_intror Hn)). unfold occurrences in X |- *. cbn [map filter] in X.
    assert (Y := occurrences_In n (map g l) Hn). unfold occurrences in Y. destruct (String.eqb n (g a)); cbn [List.length] in X; lia.
Qed.

Lemma standardize_shared_inputs f item date c i co cv v custom parsers out :
  (forall ni, In ni (request item date c i co cv v custom) -> parse_fun std_parser parsers (fst ni) <> None) ->
  standardize std_parser f [Some item; Some date; c; i; co; cv; v] custom parsers = Ok out -> NoDup (map snd (request item date c i co cv v custom)).
Proof.
  intros HP E. unfold standardize in E. apply bind_ok in E as ([] & E1 & E). apply bind_ok in E as ([] & E2 & E).
  rewrite column_names_request in E. apply bind_ok in E as ([] & E3 & E). apply bind_ok in E as (sel & E4 & E).
  set (req := request item date c i co cv v custom) in *. clearbody req.
  set (g := fun n => match dict_get n (renamer req) with Some m => m | None => n end).
  assert (C : columns sel = map g (map snd req)).
  { unfold select_and_rename in E4. apply mapM_ok in E4. unfold columns. clear - E4. subst g. revert E4. generalize (renamer req). intros rr E4.
    induction E4 as [|a b l l' H _ IH]; [reflexivity|]. cbn [map]. f_equal; [|exact IH].
    destruct (get_col (snd a) f); [|discriminate]. inversion H; subst. reflexivity. }
  apply (occurrences_one_NoDup g). rewrite <- C. intros n Hn.
  unfold columns in Hn. apply in_map_iff in Hn as ([n' x] & Y & Hx). cbn in Y. subst n'.
  apply mapM_ok in E. destruct (Forall2_In_l _ _ _ _ E Hx) as (b & _ & Eb).
  unfold parse_column in Eb. cbn [fst snd] in Eb.
  destruct (parse_fun std_parser parsers n) as [p|] eqn:P.
  - destruct (Nat.eqb_spec (occurrences n (columns sel)) 1); [assumption|discriminate].
  - exfalso. assert (Hn : In n (map g (map snd req))) by (rewrite <- C; unfold columns; change n with (fst (n, x)); now apply in_map).
    apply in_map_iff in Hn as (inp & Y & Hi). apply in_map_iff in Hi as (ni & <- & Hi).
    assert (D : dict_get (snd ni) (renamer req) = Some n).
    { unfold g in Y. destruct (dict_get (snd ni) (renamer req)) eqn:D; [congruence|]. apply dict_get_none in D. exfalso. apply D.
      unfold renamer. rewrite map_map. cbn. apply in_map_iff. eauto. }
    apply dict_get_In in D. unfold renamer in D. apply in_map_iff in D as (mi & Z & Hm). assert (FN : fst mi = n) by congruence. apply (HP mi Hm). rewrite FN. exact P.
Qed.
End S.
