(** C69, first part: flattening and splitting column names. *)
From Coq Require Import ZArith Lia List String Ascii Bool.
Require Import Verif.Base Verif.Simulation_Model.
Import ListNotations.
Open Scope string_scope.
Open Scope list_scope.

(** names that survive: not empty, no underscore at either end, no two underscores in a row *)
Definition starts_with_underscore (m : string) : Prop := exists r, m = ("_" ++ r)%string.
Definition ends_with_underscore (m : string) : Prop := exists r, m = (r ++ "_")%string.
Definition has_double_underscore (m : string) : Prop := exists a b, m = (a ++ "__" ++ b)%string.
Definition plain_name (m : string) : Prop :=
  m <> "" /\ ~ starts_with_underscore m /\ ~ ends_with_underscore m /\ ~ has_double_underscore m.

Fixpoint join2 (l : list string) : string :=
  match l with [] => "" | [x] => x | x :: r => (x ++ "__" ++ join2 r)%string end.

Lemma string_app_assoc (a b c : string) : ((a ++ b) ++ c = a ++ (b ++ c))%string.
Proof. induction a; simpl; congruence. Qed.
Lemma string_app_nil (a : string) : (a ++ "" = a)%string.
Proof. induction a; simpl; congruence. Qed.
Lemma string_app_length (a b : string) : String.length (a ++ b) = (String.length a + String.length b)%nat.
Proof. induction a; simpl; congruence. Qed.
Lemma is_underscore c : Ascii.eqb c underscore = true <-> c = "_"%char.
Proof. apply Ascii.eqb_eq. Qed.
Lemma app_ends (m s : string) : s <> "" -> ends_with_underscore (m ++ s)%string -> ends_with_underscore s.
Proof.
  intros N. induction m as [|c m IH]; simpl; auto. intros (r & E). apply IH. destruct r as [|c' r].
  - simpl in E. inversion E as [[E1 E2]]. destruct m; [|discriminate]. simpl in E2. congruence.
  - simpl in E. inversion E. now exists r.
Qed.
Lemma cons_ends c s : s <> "" -> ends_with_underscore (String c s) -> ends_with_underscore s.
Proof. intros N H. now apply (app_ends (String c "") s N). Qed.

(** *** strip *)
Lemma rstrip_id s : s = "" \/ ~ ends_with_underscore s -> rstrip s = s.
Proof.
  induction s as [|c s IH]; simpl; auto. intros [H|H]; [discriminate|].
  destruct s as [|c' s].
  - cbn. destruct (Ascii.eqb c underscore) eqn:E; auto. apply is_underscore in E. subst. exfalso. apply H. now exists "".
  - rewrite IH.
    + cbn [String.eqb]. destruct (Ascii.eqb c underscore); reflexivity.
    + right. intros (r & E). apply H. exists (String c r). simpl. now rewrite E.
Qed.
Lemma lstrip_id s : ~ starts_with_underscore s -> lstrip s = s.
Proof.
  destruct s as [|c s]; simpl; auto. intros H. destruct (Ascii.eqb c underscore) eqn:E; auto.
  apply is_underscore in E. subst. exfalso. apply H. now exists s.
Qed.
Lemma lstrip_start s : ~ starts_with_underscore (lstrip s).
Proof.
  induction s as [|c s IH]; simpl; [intros (r & E); discriminate|]. destruct (Ascii.eqb c underscore) eqn:E; auto.
  intros (r & F). inversion F; subst. discriminate.
Qed.
Lemma rstrip_start s : ~ starts_with_underscore s -> ~ starts_with_underscore (rstrip s).
Proof.
  intros H. destruct s as [|c s]; simpl; auto. destruct (Ascii.eqb c underscore) eqn:E; simpl.
  - apply is_underscore in E. subst. exfalso. apply H. now exists s.
  - intros (r & F). inversion F; subst. discriminate.
Qed.
Lemma strip_start s : ~ starts_with_underscore (strip s).
Proof. apply rstrip_start, lstrip_start. Qed.
Lemma lstrip_app (m s : string) : lstrip (m ++ s) = match lstrip m with "" => lstrip s | x => (x ++ s)%string end.
Proof. induction m as [|c m IH]; simpl; auto. destruct (Ascii.eqb c underscore); auto. Qed.
Lemma lstrip_length m : (String.length (lstrip m) <= String.length m)%nat.
Proof. induction m as [|c m IH]; simpl; auto. destruct (Ascii.eqb c underscore); simpl; lia. Qed.
Lemma lstrip_changes m : lstrip m <> m -> starts_with_underscore m.
Proof.
  destruct m as [|c m]; simpl; [congruence|]. destruct (Ascii.eqb c underscore) eqn:E; [|congruence].
  apply is_underscore in E. subst. now exists m.
Qed.

(** *** split *)
Lemma split_cons c r : split_first (String c r) =
  match r with
  | String c' r' => if andb (Ascii.eqb c underscore) (Ascii.eqb c' underscore)
                    then let '(h, t) := split_first r' in ("", h :: t) else let '(h, t) := split_first r in (String c h, t)
  | EmptyString => (String c "", [])
  end.
Proof. reflexivity. Qed.

(** induction that follows the recursion *)
Lemma split_ind (P : string -> Prop) : P "" -> (forall c, P (String c "")) ->
  (forall c c' r, P r -> P (String c' r) -> P (String c (String c' r))) -> forall s, P s.
Proof.
  intros H0 H1 H2 s. enough (P s /\ forall c, P (String c s)) by tauto.
  induction s as [|c s [I1 I2]]; split; auto.
Qed.

Lemma split_join s : join2 (split2 s) = s.
Proof.
  unfold split2. induction s as [|c|c c' r IH1 IH2] using split_ind; [reflexivity|reflexivity|]. rewrite split_cons.
  destruct (andb (Ascii.eqb c underscore) (Ascii.eqb c' underscore)) eqn:E.
  - apply andb_true_iff in E as [E1 E2]. apply is_underscore in E1, E2. subst.
    destruct (split_first r) as [h t].
    change (join2 ("" :: h :: t)) with ("" ++ "__" ++ join2 (h :: t))%string. rewrite IH1. reflexivity.
  - destruct (split_first (String c' r)) as [h t]. destruct t as [|x t]; cbn [join2 append] in *; congruence.
Qed.

Lemma split_first_ok s : forall h t, split_first s = (h, t) ->
  ~ has_double_underscore h /\ (t <> [] -> ~ ends_with_underscore h) /\ (h = "" -> t <> [] -> exists r, s = ("__" ++ r)%string) /\
  (starts_with_underscore h -> starts_with_underscore s) /\ (h = "" -> t = [] -> s = "").
Proof.
  assert (NE : ~ has_double_underscore "").
  { intros (a & b & E). destruct a; discriminate. }
  assert (N1 : forall c, ~ has_double_underscore (String c "")).
  { intros c (a & b & E). destruct a as [|x a]; [discriminate|]. simpl in E. inversion E. destruct a; discriminate. }
  induction s as [|c|c c' r IH1 IH2] using split_ind; intros h t H.
  - inversion H; subst. split; auto. split; [congruence|]. split; [congruence|]. auto.
  - inversion H; subst. split; auto. split; [congruence|]. split; [congruence|]. auto.
  - rewrite split_cons in H. destruct (andb (Ascii.eqb c underscore) (Ascii.eqb c' underscore)) eqn:E.
    + apply andb_true_iff in E as [E1 E2]. apply is_underscore in E1, E2. subst.
      destruct (split_first r) as [h1 t1]. inversion H; subst. split; auto. split.
      { intros _ (x & F). destruct x; discriminate. }
      split; [eexists; reflexivity|]. split; [|congruence]. intros (x & F). discriminate.
    + destruct (split_first (String c' r)) as [h1 t1] eqn:S1. inversion H; subst. clear H.
      destruct (IH2 h1 t eq_refl) as (A & B & Cc & D & F). split; [|split; [|split; [discriminate|split; [|discriminate]]]].
      * intros (a & b & EE). destruct a as [|x a].
        -- simpl in EE. inversion EE; subst.
           assert (SU := D (ex_intro _ b eq_refl)). destruct SU as (y & F2). inversion F2; subst. discriminate.
        -- simpl in EE. inversion EE; subst. apply A. now exists a, b.
      * intros NT (x & EE). destruct x as [|y x].
        -- simpl in EE. inversion EE; subst. destruct (Cc eq_refl NT) as (z & F2). inversion F2; subst. discriminate.
        -- simpl in EE. inversion EE; subst. apply (B NT). now exists x.
      * intros (x & EE). inversion EE; subst. now exists (String c' r).
Qed.

Lemma split_plain s : ~ has_double_underscore s -> split2 s = [s].
Proof.
  unfold split2. induction s as [|c|c c' r IH1 IH2] using split_ind; intros H; auto. rewrite split_cons.
  destruct (andb (Ascii.eqb c underscore) (Ascii.eqb c' underscore)) eqn:E.
  - apply andb_true_iff in E as [E1 E2]. apply is_underscore in E1, E2. subst. exfalso. apply H. now exists "", r.
  - assert (H' : ~ has_double_underscore (String c' r)).
    { intros (a & b & F). apply H. exists (String c a), b. simpl. now rewrite F. }
    specialize (IH2 H'). destruct (split_first (String c' r)) as [h t]. inversion IH2; subst. reflexivity.
Qed.

Lemma split_app m s : ~ has_double_underscore m -> ~ ends_with_underscore m -> split2 (m ++ "__" ++ s) = m :: split2 s.
Proof.
  unfold split2. induction m as [|c m IH]; intros H1 H2.
  - change ("" ++ "__" ++ s)%string with (String "_" (String "_" s)). rewrite split_cons. cbn [Ascii.eqb underscore Bool.eqb andb].
    destruct (split_first s) as [h t]. reflexivity.
  - assert (H1' : ~ has_double_underscore m) by (intros (a & b & F); apply H1; exists (String c a), b; simpl; now rewrite F).
    assert (H2' : ~ ends_with_underscore m) by (intros (r & F); apply H2; exists (String c r); simpl; now rewrite F).
    specialize (IH H1' H2'). change (String c m ++ "__" ++ s)%string with (String c (m ++ "__" ++ s)). rewrite split_cons.
    destruct (m ++ "__" ++ s)%string as [|c' r] eqn:EM; [destruct m; discriminate|].
    destruct (andb (Ascii.eqb c underscore) (Ascii.eqb c' underscore)) eqn:E.
    + exfalso. apply andb_true_iff in E as [E1 E2]. apply is_underscore in E1, E2. subst. destruct m as [|d m].
      * apply H2. now exists "".
      * simpl in EM. inversion EM; subst. apply H1. now exists "", m.
    + destruct (split_first (String c' r)) as [h t]. destruct (split_first s) as [h1 t1]. inversion IH; subst. reflexivity.
Qed.

Lemma flat_plain m s : m <> "" -> ~ starts_with_underscore m -> s <> "" -> ~ ends_with_underscore s ->
  flat_name (m, s) = (m ++ "__" ++ s)%string.
Proof.
  intros H1 H2 H3 H4. unfold flat_name, strip. cbn [fst snd]. rewrite lstrip_id.
  - apply rstrip_id. right. intros E. apply H4. apply (app_ends "__" s H3). apply (app_ends m); auto. discriminate.
  - intros (r & E). apply H2. destruct m as [|c m]; [congruence|]. inversion E; subst. now exists m.
Qed.

(** the first level of the restored name is the metric only if the name is plain *)
Lemma first_level_plain m s : s <> "" -> ~ starts_with_underscore s -> ~ ends_with_underscore s ->
  hd "" (unflat_name (flat_name (m, s))) = m -> plain_name m.
Proof.
  intros S0 S1 S2 H. assert (J := split_join (flat_name (m, s))). unfold unflat_name, split2 in *.
  destruct (split_first (flat_name (m, s))) as [h t] eqn:ES. cbn [hd] in H. subst h.
  destruct (split_first_ok _ _ _ ES) as (A & B & C & D & F).
  assert (NS : ~ starts_with_underscore (flat_name (m, s))) by apply strip_start.
  destruct t as [|x t].
  - exfalso. cbn [join2] in J. unfold flat_name, strip in J. cbn [fst snd] in J. rewrite lstrip_app in J.
    destruct (lstrip m) as [|c l] eqn:EL.
    + change (lstrip ("__" ++ s)) with (lstrip s) in J. rewrite (lstrip_id s) in J by auto. rewrite rstrip_id in J by auto. subst m.
      rewrite (lstrip_id s S1) in EL. congruence.
    + assert (R : rstrip (String c l ++ "__" ++ s) = (String c l ++ "__" ++ s)%string).
      { apply rstrip_id. right. intros E. apply S2. apply (app_ends "__" s S0). apply (app_ends (String c l)); auto. discriminate. }
      rewrite R in J. assert (LL := f_equal String.length J). rewrite !string_app_length in LL.
      destruct (string_dec (lstrip m) m) as [Q|Q].
      * rewrite Q in EL. subst m. cbn [String.length] in LL. lia.
      * apply lstrip_changes in Q as (r & Q). rewrite Q in J. simpl in J.
        assert (CU : c = "_"%char) by congruence. subst c. apply (lstrip_start m). rewrite EL. now exists l.
  - split; [|split; [|split; auto]].
    + intros ->. destruct (C eq_refl ltac:(discriminate)) as (r & E). apply NS. rewrite E. now exists ("_" ++ r)%string.
    + intros X. apply NS. auto.
    + apply B. discriminate.
Qed.

(** the periods of an experiment *)
Definition period_names : list string := ["pretest"; "test"; "test_1"; "test_2"; "washout_1"; "washout_2"].
Lemma rstrip_shorter r : (String.length (rstrip (r ++ "_")) <= String.length r)%nat.
Proof. induction r as [|c r IH]; simpl; auto. destruct (andb _ _); simpl; lia. Qed.
Lemma period_names_plain s : In s period_names -> plain_name s.
Proof.
  intros H. assert (E : (0 <? String.length s)%nat = true /\ lstrip s = s /\ rstrip s = s /\ split_first s = (s, [])).
  { repeat (destruct H as [<-|H]; [repeat split; reflexivity|]). destruct H. }
  destruct E as (E1 & E2 & E3 & E4). split; [intros ->; discriminate|]. split; [rewrite <- E2; apply lstrip_start|]. split.
  - intros (r & ->). assert (L := rstrip_shorter r). rewrite E3, string_app_length in L. simpl in L. lia.
  - now apply split_first_ok in E4.
Qed.

(** C69: the pair comes back iff the metric has a plain name *)
Theorem c69_name_round_trip :
  forall m s, In s period_names -> (unflat_name (flat_name (m, s)) = [m; s] <-> plain_name m).
Proof.
  intros m s HS. destruct (period_names_plain s HS) as (S0 & S1 & S2 & S3). split.
  - intros H. apply (first_level_plain m s); auto. now rewrite H.
  - intros (M0 & M1 & M2 & M3). rewrite flat_plain by auto. unfold unflat_name. rewrite split_app by auto. now rewrite split_plain.
Qed.

(** otherwise no column is found under the name of the metric *)
Theorem c69_other_names_are_lost :
  forall m s, In s period_names -> ~ plain_name m -> hd "" (unflat_name (flat_name (m, s))) <> m.
Proof.
  intros m s HS N H. destruct (period_names_plain s HS) as (S0 & S1 & S2 & S3). apply N. now apply (first_level_plain m s).
Qed.

Theorem c69_every_name_survives_refuted :
  exists m s, In s period_names /\ m <> "" /\ unflat_name (flat_name (m, s)) = ["conversions"; "_test"] /\ m <> "conversions".
Proof. exists "conversions_", "test". repeat split; simpl; auto; discriminate. Qed.

Example c69_example_plain : plain_name "clicks" /\ plain_name "total_clicks" /\ ~ plain_name "ads__clicks" /\ ~ plain_name "_clicks".
Proof.
  split; [|split; [|split]].
  - apply (c69_name_round_trip "clicks" "test"); [simpl; auto|reflexivity].
  - apply (c69_name_round_trip "total_clicks" "test_1"); [simpl; auto|reflexivity].
  - intros (_ & _ & _ & H). apply H. now exists "ads", "clicks".
  - intros (_ & H & _). apply H. now exists "clicks".
Qed.

Print Assumptions c69_name_round_trip.
Print Assumptions c69_other_names_are_lost.
Print Assumptions c69_every_name_survives_refuted.
