(** C88: the preparation of raw data frames. *)
From Coq Require Import ZArith Reals Lra List String Bool Lia.
From Flocq Require Import Core BinarySingleNaN.
Require Import Verif.Base Verif.Num Verif.Frame Verif.F64 Verif.ListLib Verif.Design_Model Verif.Standard_Model Verif.Standard_Props Verif.Experiment_Props
  Verif.Periods_Model Verif.Rows_Model Verif.Checks_Model Verif.Checks_Spec Verif.Pipeline_Model Verif.Designer_Spec Verif.Designer_Model Verif.Designer_Proofs
  Verif.Entry_Model Verif.Entry_Spec Verif.Entry_Proofs.
Import ListNotations.
Open Scope string_scope.
Open Scope list_scope.
Open Scope Z_scope.

Lemma text_nth l i : text_of (nth i (map CStr l) CNull) = nth i l "".
Proof. revert i. induction l as [|a l IH]; intros [|i]; cbn; auto. Qed.
Lemma instant_nth l i : instant_of (nth i (map CZ l) CNull) = nth i l 0.
Proof. revert i. induction l as [|a l IH]; intros [|i]; cbn; auto. Qed.
Lemma number_nth l i : number_of (nth i (map CNum l) CNull) = nth i l NaN.
Proof. revert i. induction l as [|a l IH]; intros [|i]; cbn; auto. Qed.
Lemma col_or_nil_some c f v : get_col c f = Some v -> col_or_nil c f = v.
Proof. unfold col_or_nil. now intros ->. Qed.

Lemma rows_of_table f ms ids dates cols :
  get_col "item_id" f = Some (map CStr ids) -> get_col "date" f = Some (map CZ dates) ->
  Forall2 (fun m l => get_col m f = Some (map CNum l)) ms cols ->
  rows_of f ms = table_rows ids dates cols.
Proof.
  intros H1 H2 H3. unfold rows_of, table_rows. rewrite (col_or_nil_some _ _ _ H1), (col_or_nil_some _ _ _ H2), map_length.
  apply map_ext. intros i. rewrite text_nth, instant_nth. f_equal.
  induction H3 as [|m l ms ls H _ IH]; [reflexivity|]. cbn [map]. rewrite IH, (col_or_nil_some _ _ _ H), number_nth. reflexivity.
Qed.

(** the name of the metric column after standardization, and its conversion *)
Definition metric_name (pm column : string) : string := if String.eqb pm "other" then column else pm.

Lemma push {A B} (x : B) (Q : A -> Prop) : (exists a, Q a) -> exists a, x = x /\ Q a.
Proof. intros (a & H). eauto. Qed.

Lemma historical_standardized std to_float raw item date pm column ids dates vals :
  In pm allowed_primary_metrics -> (pm = "other" -> ~ In column standard_names) -> NoDup [item; date; column] ->
  reads CStr (std "item_id") raw item ids -> reads CZ (std "date") raw date dates ->
  reads CNum (if String.eqb pm "other" then to_float else std pm) raw column vals ->
  exists inputs custom parsers out,
    historical_request to_float item date pm column = (inputs, custom, parsers, metric_name pm column) /\
    standardize std raw inputs custom parsers = Ok out /\
    columns out = ["item_id"; "date"; metric_name pm column] /\
    rows_of out [metric_name pm column] = table_rows ids dates [vals].
Proof.
  intros HA HO ND (v1 & G1 & L1 & C1) (v2 & G2 & L2 & C2) (v3 & G3 & L3 & C3). unfold historical_request, metric_name.
  assert (H1 : has_col item raw = true) by (apply has_col_get; eauto).
  assert (H2 : has_col date raw = true) by (apply has_col_get; eauto).
  assert (H3 : has_col column raw = true) by (apply has_col_get; eauto).
  destruct (String.eqb_spec pm "other") as [E|E].
  - subst pm. specialize (HO eq_refl). match goal with |- exists inputs custom parsers out, (?a, ?b, ?c, ?n) = _ /\ _ => exists a, b, c end.
    apply push.
    assert (PF : parse_fun std [(column, to_float)] column = Some to_float) by (unfold parse_fun; cbn; now rewrite String.eqb_refl).
    assert (PS : forall n, In n standard_names -> parse_fun std [(column, to_float)] n = Some (std n)).
    { intros n Hn. unfold parse_fun. cbn [dict_get]. destruct (String.eqb_spec n column); [subst; contradiction|].
      now rewrite (proj2 (in_names_iff n standard_names) Hn). }
    destruct (standardize_reads std raw item date None None None None None [(column, column)] [(column, to_float)]) as (out & E1 & E2 & E3).
    + split; [|split].
      * intros n Hn. cbn in Hn. destruct Hn as [<-|[]]. exact HO.
      * intros n Hn. cbn in Hn |- *. exact Hn.
      * cbn. intros n [<-|[<-|[<-|[]]]]; assumption.
    + repeat constructor; auto.
    + cbn. exact ND.
    + cbn. intros ni [<-|[<-|[<-|[]]]]; cbn [fst snd].
      * exists v1, (map CStr ids). split; [exact G1|]. unfold convert. rewrite PS by (cbn; auto). exact C1.
      * exists v2, (map CZ dates). split; [exact G2|]. unfold convert. rewrite PS by (cbn; auto). exact C2.
      * exists v3, (map CNum vals). split; [exact G3|]. unfold convert. rewrite PF. exact C3.
    + exists out. split; [exact E1|]. split; [exact E2|]. apply rows_of_table.
      * apply (E3 ("item_id", item) v1); [cbn; auto|exact G1|]. unfold convert. cbn [fst]. rewrite PS by (cbn; auto). exact C1.
      * apply (E3 ("date", date) v2); [cbn; auto|exact G2|]. unfold convert. cbn [fst]. rewrite PS by (cbn; auto). exact C2.
      * constructor; [|constructor]. apply (E3 (column, column) v3); [cbn; auto|exact G3|]. unfold convert. cbn [fst]. rewrite PF. exact C3.
  - clear HO. match goal with |- exists inputs custom parsers out, (?a, ?b, ?c, ?n) = _ /\ _ => exists a, b, c end. apply push.
    assert (PS : forall n, In n standard_names -> convert std [] n = std n).
    { intros n Hn. unfold convert, parse_fun. cbn [dict_get]. now rewrite (proj2 (in_names_iff n standard_names) Hn). }
    assert (KEY : forall n c i co cv v, In n standard_names ->
      request item date c i co cv v [] = [("item_id", item); ("date", date); (n, column)] -> n = pm ->
      exists out, standardize std raw [Some item; Some date; c; i; co; cv; v] [] [] = Ok out /\
        columns out = ["item_id"; "date"; n] /\ rows_of out [n] = table_rows ids dates [vals]).
    { intros n c i co cv v Hn HR ->.
      destruct (standardize_reads std raw item date c i co cv v [] []) as (out & E1 & E2 & E3).
      + unfold request_ok. rewrite HR. split; [intros n []|]. split; [intros n []|]. cbn. intros n [<-|[<-|[<-|[]]]]; assumption.
      + constructor.
      + rewrite HR. cbn. exact ND.
      + rewrite HR. intros ni [<-|[<-|[<-|[]]]]; cbn [fst snd].
        * exists v1, (map CStr ids). rewrite PS by (cbn; auto). auto.
        * exists v2, (map CZ dates). rewrite PS by (cbn; auto). auto.
        * exists v3, (map CNum vals). rewrite PS by assumption. auto.
      + exists out. split; [exact E1|]. rewrite HR in E2, E3. split; [exact E2|]. apply rows_of_table.
        * apply (E3 ("item_id", item) v1); [cbn; auto|exact G1|]. cbn [fst]. rewrite PS by (cbn; auto). exact C1.
        * apply (E3 ("date", date) v2); [cbn; auto|exact G2|]. cbn [fst]. rewrite PS by (cbn; auto). exact C2.
        * constructor; [|constructor]. apply (E3 (pm, column) v3); [cbn; auto|exact G3|]. cbn [fst]. rewrite PS by assumption. exact C3. }
    cbn in HA. destruct HA as [<-|[<-|[<-|[<-|[<-|[<-|[]]]]]]]; try congruence; cbn [map String.eqb Ascii.eqb Bool.eqb];
      (match goal with |- exists out, standardize std raw (_ :: _ :: [?c; ?i; ?co; ?cv; ?v]) [] [] = _ /\ columns out = [_; _; ?n] /\ _ =>
        apply (KEY n c i co cv v); [cbn; tauto|reflexivity|reflexivity] end).
Qed.

Lemma map_text_str l : map text_of (map (fun g => CStr (g_item g)) l) = map g_item l.
Proof. rewrite map_map. reflexivity. Qed.
Lemma map_instant {A} (h : A -> Z) l : map instant_of (map (fun g => CZ (h g)) l) = map h l.
Proof. rewrite map_map. reflexivity. Qed.

Theorem c88_historical_reads_three_columns :
  forall std to_float by_date frac draw raw item date pm column skip ids dates vals,
    In pm allowed_primary_metrics ->
    (pm = "other" -> ~ In column standard_names /\ ~ In column reserved_names) -> NoDup [item; date; column] ->
    reads CStr (std "item_id") raw item ids -> reads CZ (std "date") raw date dates ->
    reads CNum (if String.eqb pm "other" then to_float else std pm) raw column vals ->
    historical_entry std to_float by_date frac draw raw item date pm column skip =
      (let! rows := prepare_historical by_date frac draw pm (metric_name pm column) skip (table_rows ids dates [vals]) in
       Ok (historical_frame (metric_name pm column) rows)).
Proof.
  intros std to_float by_date frac draw raw item date pm column skip ids dates vals HA HO ND R1 R2 R3.
  destruct (historical_standardized std to_float raw item date pm column ids dates vals HA (fun e => proj1 (HO e)) ND R1 R2 R3) as (inputs & custom & parsers & out & E1 & E2 & E3 & E4).
  assert (EA : existsb (String.eqb pm) allowed_primary_metrics = true) by (apply (existsb_eqb_In _ String.eqb_eq); exact HA).
  unfold historical_entry, prepare_historical. rewrite EA. cbn [negb raise_if bind]. rewrite E1, E2. cbn [bind]. rewrite E3, E4.
  set (name := metric_name pm column).
  assert (NN : ~ In name ["week_id"; "week_start"; "days_in_week"; "item_id"]).
  { unfold name, metric_name. destruct (String.eqb_spec pm "other") as [->|N].
    - destruct (HO eq_refl) as [H1 H2]. cbn in H1, H2 |- *. tauto.
    - clear - HA N. cbn in HA. destruct HA as [<-|[<-|[<-|[<-|[<-|[<-|[]]]]]]]; cbn; intuition discriminate. }
  assert (N1 : String.eqb name "week_id" = false) by (apply String.eqb_neq; intros ->; apply NN; cbn; auto).
  assert (N2 : String.eqb name "week_start" = false) by (apply String.eqb_neq; intros ->; apply NN; cbn; auto).
  assert (N3 : String.eqb name "days_in_week" = false) by (apply String.eqb_neq; intros ->; apply NN; cbn; auto).
  assert (N4 : String.eqb name "item_id" = false) by (apply String.eqb_neq; intros ->; apply NN; cbn; auto).
  unfold fill_missing_rows_with_zeros. cbn [in_columns existsb String.eqb Ascii.eqb Bool.eqb orb andb negb raise_if bind].
  destruct (group_data_to_complete_weeks 1 (add_weeks None (fill_rows 1 (table_rows ids dates [vals])))) as [grouped|e]; [|reflexivity].
  cbn [bind]. unfold downsample_items. cbn [in_columns existsb String.eqb Ascii.eqb Bool.eqb orb andb negb].
  match goal with |- context [bind (bind ?r ?k) _] => destruct (bind r k) as [clean|e]; [|reflexivity] end. cbn [bind].
  unfold historical_columns_of. rewrite N1, N2, N3, andb_false_r. cbn [orb raise_if bind app].
  match goal with |- context [view_of_frame ?f] => change f with (historical_frame name clean) end.
  assert (EV : validate_historical_data by_date (view_of_frame (historical_frame name clean)) name skip = validate_historical_data by_date (historical_view name clean) name skip).
  { unfold validate_historical_data, view_of_frame, historical_view, check_finite, check_non_negative, col_or_nil, historical_frame.
    cbn [v_cells v_items v_dates v_weeks v_col map snd get_col String.eqb Ascii.eqb Bool.eqb any_column].
    rewrite map_text_str, !map_instant, N1, N2, N4, !String.eqb_refl, map_map. reflexivity. }
  rewrite EV. destruct (validate_historical_data by_date (historical_view name clean) name skip); reflexivity.
Qed.

(** *** Which calls are accepted *)
Theorem c88_accepted_historical_calls :
  forall std to_float by_date frac draw raw item date pm column skip out,
    historical_entry std to_float by_date frac draw raw item date pm column skip = Ok out ->
    In pm allowed_primary_metrics /\ NoDup [item; date; column] /\
    (forall c, In c [item; date; column] -> has_col c raw = true) /\
    (pm = "other" -> ~ In column standard_names /\ column <> "week_start").
Proof.
  intros std to_float by_date frac draw raw item date pm column skip out H. unfold historical_entry in H.
  apply bind_ok in H as (u & H1 & H). apply raise_if_ok in H1. apply negb_false_iff in H1.
  assert (HA : In pm allowed_primary_metrics) by (apply (existsb_eqb_In _ String.eqb_eq); exact H1). clear u H1.
  split; [exact HA|].
  assert (KEY : forall c i co cv v custom parsers name o,
    request item date c i co cv v custom = [("item_id", item); ("date", date); (name, column)] ->
    (forall n, In n ["item_id"; "date"; name] -> parse_fun std parsers n <> None) ->
    standardize std raw [Some item; Some date; c; i; co; cv; v] custom parsers = Ok o ->
    NoDup [item; date; column] /\ (forall c, In c [item; date; column] -> has_col c raw = true) /\
    (forall n, In n (map fst custom) -> ~ In n standard_names)).
  { intros c i co cv v custom parsers name o HR HP E. split; [|].
    - apply standardize_shared_inputs in E; [rewrite HR in E; exact E|]. rewrite HR. intros ni Hn. apply HP. cbn in Hn |- *. intuition (subst; auto).
    - apply standardize_ok_request in E. unfold request_ok in E. rewrite HR in E. destruct E as (E1 & _ & E3). split; [exact E3|exact E1]. }
  unfold historical_request in H. destruct (String.eqb_spec pm "other") as [->|N].
  - apply bind_ok in H as (o & ES & H). apply KEY with (name := column) in ES; [|reflexivity|].
    + destruct ES as (A & B & C). split; [exact A|]. split; [exact B|]. intros _. split; [apply C; now left|].
      intros ->. apply bind_ok in H as (? & _ & H). apply bind_ok in H as (? & _ & H). apply bind_ok in H as (? & _ & H). discriminate.
    + intros n Hn P. unfold parse_fun in P. cbn [dict_get] in P. destruct (String.eqb_spec n column); [discriminate|].
      destruct Hn as [<-|[<-|[<-|[]]]]; try discriminate. congruence.
  - apply bind_ok in H as (o & ES & H). assert (PS : forall n, In n standard_names -> parse_fun std [] n <> None).
    { intros n Hn. unfold parse_fun. cbn [dict_get]. rewrite (proj2 (in_names_iff n standard_names) Hn). discriminate. }
    assert (In pm standard_names /\ NoDup [item; date; column] /\ (forall c, In c [item; date; column] -> has_col c raw = true)) as (_ & A & B).
    { cbn in HA. destruct HA as [<-|[<-|[<-|[<-|[<-|[<-|[]]]]]]]; try congruence; cbn [map String.eqb Ascii.eqb Bool.eqb] in ES; (split; [cbn; tauto|]);
      match type of ES with standardize std raw (_ :: _ :: [?c; ?i; ?co; ?cv; ?v]) [] [] = _ =>
        (eapply KEY in ES; [|reflexivity|]); [tauto|]; intros n Hn; apply PS; cbn in Hn |- *; intuition (subst; auto 10) end. }
    split; [exact A|]. split; [exact B|]. congruence.
Qed.

(** the other columns of the raw data do not matter *)
Lemma standardize_agree std f f' item date c i co cv v custom parsers :
  (forall n, In n (map snd (request item date c i co cv v custom)) -> get_col n f = get_col n f') ->
  standardize std f [Some item; Some date; c; i; co; cv; v] custom parsers = standardize std f' [Some item; Some date; c; i; co; cv; v] custom parsers.
Proof.
  intros H. unfold standardize. rewrite column_names_request. set (req := request item date c i co cv v custom) in *. clearbody req.
  assert (E1 : existsb (fun ni : string * string => negb (has_col (snd ni) f)) req = existsb (fun ni => negb (has_col (snd ni) f')) req).
  { induction req as [|a l IH]; [reflexivity|]. cbn [existsb]. rewrite IH by (intros; apply H; now right). f_equal. f_equal.
    specialize (H (snd a) (or_introl eq_refl)). destruct (has_col (snd a) f) eqn:A, (has_col (snd a) f') eqn:B; try reflexivity.
    - apply has_col_get in A as (x & A). apply has_col_none in B. congruence.
    - apply has_col_get in B as (x & B). apply has_col_none in A. congruence. }
  rewrite E1.
  assert (E2 : select_and_rename f req = select_and_rename f' req).
  { unfold select_and_rename. generalize (renamer req). intros rr. induction req as [|a l IH]; [reflexivity|]. cbn [mapM].
    assert (E1' : existsb (fun ni : string * string => negb (has_col (snd ni) f)) l = existsb (fun ni => negb (has_col (snd ni) f')) l) by (clear -H; induction l as [|b l IHl]; [reflexivity|]; cbn [existsb];
      rewrite IHl by (intros n [<-|Hn]; apply H; [now left|right; now right]); f_equal; f_equal;
      specialize (H (snd b) (or_intror (or_introl eq_refl)));
      destruct (has_col (snd b) f) eqn:A, (has_col (snd b) f') eqn:B; try reflexivity;
      [apply has_col_get in A as (x & A); apply has_col_none in B; congruence|apply has_col_get in B as (x & B); apply has_col_none in A; congruence]).
    rewrite (H (snd a) (or_introl eq_refl)). rewrite IH; [reflexivity|intros; apply H; now right|exact E1']. }
  rewrite E2. reflexivity.
Qed.

Theorem c88_other_columns_do_not_matter :
  forall std to_float by_date frac draw raw raw' item date pm column skip,
    (forall c, In c [item; date; column] -> get_col c raw = get_col c raw') ->
    historical_entry std to_float by_date frac draw raw item date pm column skip =
    historical_entry std to_float by_date frac draw raw' item date pm column skip.
Proof.
  intros std to_float by_date frac draw raw raw' item date pm column skip H. unfold historical_entry.
  destruct (raise_if _ _) as [u|e] eqn:E; [|reflexivity]. cbn [bind]. apply raise_if_ok in E. apply negb_false_iff in E.
  assert (HA : In pm allowed_primary_metrics) by (apply (existsb_eqb_In _ String.eqb_eq); exact E). clear E.
  unfold historical_request. destruct (String.eqb_spec pm "other") as [->|N].
  - rewrite (standardize_agree std raw raw'); [reflexivity|]. cbn. intros n Hn. apply H. cbn. exact Hn.
  - cbn in HA. destruct HA as [<-|[<-|[<-|[<-|[<-|[<-|[]]]]]]]; try congruence; cbn [map String.eqb Ascii.eqb Bool.eqb];
      (rewrite (standardize_agree std raw raw'); [reflexivity|]; cbn; intros n Hn; apply H; cbn; exact Hn).
Qed.

(** *** What the names of the columns can do *)
(** the conversions on cells that have the right type already; astype(str) turns a missing id into the text nan *)
Definition to_text (c : cell) : cell := match c with CNull => CStr "nan" | _ => c end.
Definition plain_parser (n : string) (v : list cell) : result (list cell) :=
  if String.eqb n "item_id" then Ok (map to_text v) else Ok v.

(** a metric column called week_id is replaced by the week ids without a message: whatever its values, the call returns the same *)
Theorem c88_the_metric_is_kept_refuted :
  exists by_date out, orders_by_date by_date /\ forall x y : num,
    historical_entry plain_parser (fun v => Ok v) by_date f1 (fun l _ => l)
      [("sku", [CStr "a"; CStr "a"]); ("day", [CZ 0; CZ (7 * day)]); ("week_id", [CNum x; CNum y])] "sku" "day" "other" "week_id" [] = Ok out.
Proof.
  exists Checks_Props.isort_by_date,
    [("week_id", [CZ 0; CZ 1]); ("week_start", [CZ 0; CZ (7 * day)]); ("item_id", [CStr "a"; CStr "a"])].
  split; [exact Checks_Props.c27_sorter_exists|]. intros x y.
  set (raw := [("sku", [CStr "a"; CStr "a"]); ("day", [CZ 0; CZ (7 * day)]); ("week_id", [CNum x; CNum y])]).
  set (g := [mkG 0 0 "a" [] [nan0 x]; mkG 1 (7 * day) "a" [] [nan0 y]]).
  set (out := [("week_id", [CZ 0; CZ 1]); ("week_start", [CZ 0; CZ (7 * day)]); ("item_id", [CStr "a"; CStr "a"])]).
  assert (ES : standardize plain_parser raw [Some "sku"; Some "day"; None; None; None; None; None] [("week_id", "week_id")] [@pair string parser "week_id" (fun v => Ok v)]
     = Ok [("item_id", [CStr "a"; CStr "a"]); ("date", [CZ 0; CZ (7 * day)]); ("week_id", [CNum x; CNum y])]) by reflexivity.
  unfold historical_entry, historical_request. cbn [existsb String.eqb Ascii.eqb Bool.eqb orb andb negb raise_if bind allowed_primary_metrics].
  rewrite ES. cbn [bind].
  change (rows_of _ _) with [mkObs "a" 0 [x]; mkObs "a" (7 * day) [y]].
  unfold fill_missing_rows_with_zeros. cbn [columns map fst in_columns existsb String.eqb Ascii.eqb Bool.eqb orb andb negb raise_if bind].
  assert (EG : group_data_to_complete_weeks 1 (add_weeks None (fill_rows 1 [mkObs "a" 0 [x]; mkObs "a" (7 * day) [y]])) = Ok g) by reflexivity.
  rewrite EG. cbn [bind]. unfold downsample_items.
  assert (EF : orb (fleb f1 f0) (fgtb f1 f1) = false) by (vm_compute; reflexivity).
  assert (EQ : feqb f1 f1 = true) by (vm_compute; reflexivity).
  rewrite EF, EQ. cbn [in_columns existsb String.eqb Ascii.eqb Bool.eqb orb andb negb raise_if bind].
  change (historical_columns_of _ _ _) with out.
  assert (EV : validate_historical_data Checks_Props.isort_by_date (view_of_frame out) "week_id" [] = Ok tt).
  { unfold validate_historical_data.
    change (check_no_nulls _) with (Ok false). change (check_no_duplicates _) with (Ok false : result bool).
    change (check_dates_spacing _) with (Ok false). change (check_week_ids _ _) with (Ok false).
    change (check_finite _ _) with (Ok false).
    assert (EN : check_non_negative (v_col (view_of_frame out)) ["week_id"] = Ok false).
    { unfold check_non_negative. cbn [any_column]. change (v_col (view_of_frame out) "week_id") with (Some [Fin (IZR 0); Fin (IZR 1)]).
      cbn [existsb]. rewrite (proj2 (nltb_fin_false _ _)) by (apply Rle_refl). rewrite (proj2 (nltb_fin_false _ _)) by (apply IZR_le; lia). reflexivity. }
    rewrite EN. reflexivity. }
  rewrite EV. reflexivity.
Qed.

(** rows without an item id are rows of an item called nan: the null check comes after the conversion to text *)
Theorem c88_rows_without_item_id_are_rejected_refuted :
  exists by_date raw out, orders_by_date by_date /\ In CNull (col_or_nil "sku" raw) /\
    historical_entry plain_parser (fun v => Ok v) by_date f1 (fun l _ => l) raw "sku" "day" "clicks" "clicks" [] = Ok out /\
    In (CStr "nan") (col_or_nil "item_id" out).
Proof.
  set (by_date := Checks_Props.isort_by_date).
  set (raw := [("sku", [CStr "a"; CNull; CStr "a"; CNull]); ("day", [CZ 0; CZ 0; CZ (7 * day); CZ (7 * day)]); ("clicks", [CNum (Fin 1); CNum (Fin 2); CNum (Fin 3); CNum (Fin 4)])]).
  set (rows := table_rows ["a"; "nan"; "a"; "nan"] [0; 0; 7 * day; 7 * day] [[Fin 1; Fin 2; Fin 3; Fin 4]]).
  assert (ER : rows = [mkObs "a" 0 [Fin 1]; mkObs "nan" 0 [Fin 2]; mkObs "a" (7 * day) [Fin 3]; mkObs "nan" (7 * day) [Fin 4]]) by reflexivity.
  destruct (weekly_accepted by_date (fun l _ => l) "clicks" "clicks" rows 2) as (g & EG & PG).
  - exact Checks_Props.c27_sorter_exists.
  - cbn; auto.
  - rewrite ER. intros r Hr. cbn in Hr. destruct Hr as [<-|[<-|[<-|[<-|[]]]]]; eexists; (split; [reflexivity|]); right; eexists; (split; [reflexivity|]); lra.
  - rewrite ER. discriminate.
  - exists 0. rewrite ER. intros x. cbn [map o_date In]. split.
    + intros [<-|[<-|[<-|[<-|[]]]]]; [exists 0|exists 0|exists 1|exists 1]; lia.
    + intros (i & Hi & ->). assert (i = 0 \/ i = 1) as [->| ->] by lia; [left; reflexivity|right; right; left; reflexivity].
  - lia.
  - rewrite ER. cbn. repeat constructor; cbn; intuition discriminate.
  - exists by_date, raw, (historical_frame "clicks" g). split; [exact Checks_Props.c27_sorter_exists|]. split; [cbn; auto|].
    rewrite (c88_historical_reads_three_columns plain_parser (fun v => Ok v) by_date f1 (fun l _ => l) raw "sku" "day" "clicks" "clicks" []
      ["a"; "nan"; "a"; "nan"] [0; 0; 7 * day; 7 * day] [Fin 1; Fin 2; Fin 3; Fin 4]).
    + fold rows. change (metric_name "clicks" "clicks") with "clicks". rewrite EG. split; [reflexivity|].
      destruct PG as (_ & _ & _ & _ & PG). rewrite ER in PG. specialize (PG "nan" 0 ltac:(cbn; auto) ltac:(lia)).
      unfold col_or_nil, historical_frame. cbn [get_col String.eqb Ascii.eqb Bool.eqb].
      destruct (filter (fun g0 => (String.eqb (g_item g0) "nan" && (g_week g0 =? 0))%bool) g) as [|x l] eqn:F; [discriminate|].
      assert (Hx : In x (x :: l)) by now left. rewrite <- F in Hx. apply filter_In in Hx as [Hx Ex]. apply andb_true_iff in Ex as [Ex _]. apply String.eqb_eq in Ex.
      apply in_map_iff. exists x. now rewrite Ex.
    + cbn; auto.
    + discriminate.
    + repeat constructor; cbn; intuition discriminate.
    + eexists. split; [reflexivity|]. split; reflexivity.
    + eexists. split; [reflexivity|]. split; reflexivity.
    + eexists. split; [reflexivity|]. split; reflexivity.
Qed.

Print Assumptions c88_historical_reads_three_columns.
Print Assumptions c88_accepted_historical_calls.
Print Assumptions c88_other_columns_do_not_matter.
Print Assumptions c88_the_metric_is_kept_refuted.
Print Assumptions c88_rows_without_item_id_are_rejected_refuted.
