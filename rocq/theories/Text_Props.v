(** C90. The text printed for a design. *)
From Coq Require Import ZArith Reals List String Ascii Bool Lia Lra.
From Flocq Require Import Core BinarySingleNaN.
Require Import Verif.Base Verif.F64 Verif.MD5 Verif.Design_Model Verif.Design_Spec Verif.Design_Proofs
  Verif.Design_Yaml_Proofs Verif.Design_Text_Proofs Verif.Periods_Model Verif.Periods_Props
  Verif.Display_Model Verif.Display_Spec Verif.Display_Proofs Verif.Display_Props
  Verif.Text_Model Verif.Text_Spec Verif.Text_Proofs.
Import ListNotations.
Open Scope string_scope.
Open Scope Z_scope.

Lemma okinj {A : Type} (a b : A) : Ok a = Ok b -> a = b.
Proof. congruence. Qed.

(** names without newline characters, and a representation of floats without them *)
Record readable (frepr : f64 -> string) (p : params) : Prop := {
  rd_metric : one_line (metric p);
  rd_salt : forall s, salt p = Some s -> one_line s;
  rd_float : forall x, one_line (frepr x)
}.

(** the lines printed for a valid design *)
Lemma design_text_lines frepr p d : mk_design p = Ok d ->
  exists cl, crossover_lines p = Ok cl /\
    design_lines frepr d =
      Ok ((["Design " ++ md5_hexdigest (repr_design frepr (set_salt d None)); "";
            tab ++ "Experiment type: " ++ experiment_type p; tab ++ "Primary metric: " ++ metric p;
            tab ++ "Number of weeks of data before start of experiment used for analysis: " ++ dec (pretest p);
            tab ++ "Total experiment runtime weeks: " ++ dec (runtime p)]%string
           ++ cl ++ [""; "Number of items for testing:"; ""] ++ trimming_lines d
           ++ [""; "Extra details:"; ""; tab ++ "Alpha threshold: " ++ frepr (alpha p); tab ++ "Power: " ++ frepr (power p);
               tab ++ "Coinflip salt: " ++ str_of_salt (salt p)]%string)%list).
Proof.
  intros H. assert (ID := design_id_ok frepr p d H). assert (E : par d = p) by (apply mk_design_iff in H as [_ ->]; reflexivity).
  assert (V := proj1 (proj1 (mk_design_iff p d) H)). unfold design_lines. rewrite ID, E. cbn [bind].
  unfold crossover_lines. destruct (crossover p) eqn:C; [|eauto].
  destruct (ok_crossover p V C) as (w & W & _). rewrite W. cbn [bind]. eauto.
Qed.

Theorem c90_every_design_can_be_printed :
  forall frepr p d s, mk_design p = Ok d ->
    exists id rest, design_id frepr d = Ok id /\
      design_text frepr (set_salt d s) = Ok ("Design " ++ id ++ String newline rest).
Proof.
  intros frepr p d s H. exists (md5_hexdigest (repr_design frepr (set_salt d None))).
  assert (HS := mk_design_set_salt p d s H). destruct (design_text_lines frepr _ _ HS) as (cl & _ & L).
  eexists. split; [now apply design_id_ok with p|]. unfold design_text. rewrite L. cbn [bind].
  change (set_salt (set_salt d s) None) with (set_salt d None). cbn [List.app join]. rewrite append_assoc. reflexivity.
Qed.

Lemma join_snoc sep l x : l <> [] -> join sep (l ++ [x]) = (join sep l ++ sep ++ x)%string.
Proof.
  induction l as [|a l IH]; [contradiction|]. intros _. destruct l as [|b l]; [reflexivity|].
  change (join sep ((a :: b :: l) ++ [x])) with (a ++ sep ++ join sep ((b :: l) ++ [x])). rewrite IH by discriminate.
  cbn [join]. now rewrite !append_assoc.
Qed.

(** the salt appears in the last line and nowhere else *)
Theorem c90_only_the_last_line_depends_on_the_salt :
  forall frepr p d, mk_design p = Ok d ->
    exists body, forall s,
      design_text frepr (set_salt d s) =
      Ok (body ++ String newline (tab ++ "Coinflip salt: " ++ match s with None => "None" | Some x => x end)).
Proof.
  intros frepr p d H.
  destruct (design_text_lines frepr _ _ (mk_design_set_salt p d None H)) as (cl0 & C0 & _).
  set (front := (["Design " ++ md5_hexdigest (repr_design frepr (set_salt d None)); "";
            tab ++ "Experiment type: " ++ experiment_type (par d); tab ++ "Primary metric: " ++ metric (par d);
            tab ++ "Number of weeks of data before start of experiment used for analysis: " ++ dec (pretest (par d));
            tab ++ "Total experiment runtime weeks: " ++ dec (runtime (par d))]%string
           ++ cl0 ++ [""; "Number of items for testing:"; ""] ++ trimming_lines d
           ++ [""; "Extra details:"; ""; tab ++ "Alpha threshold: " ++ frepr (alpha (par d)); tab ++ "Power: " ++ frepr (power (par d))]%string)%list).
  assert (F : forall s, design_lines frepr (set_salt d s) = Ok (front ++ [tab ++ "Coinflip salt: " ++ str_of_salt s]%string)%list).
  { intros s. destruct (design_text_lines frepr _ _ (mk_design_set_salt p d s H)) as (cl & C & L).
    assert (Q : crossover_lines (par (set_salt d s)) = crossover_lines (par (set_salt d None))) by reflexivity.
    assert (cl = cl0) by congruence. subst cl. rewrite L. f_equal. unfold front. rewrite <- !app_assoc. reflexivity. }
  exists (join (String newline "") front). intros s. unfold design_text. rewrite F. cbn [bind].
  rewrite join_snoc by discriminate. reflexivity.
Qed.

(** *** reading the text *)
Lemma text_lines frepr p d text : mk_design p = Ok d -> readable frepr p -> design_text frepr d = Ok text ->
  exists ls, design_lines frepr d = Ok ls /\ lines_of text = ls.
Proof.
  intros H [RM RS RF] T. destruct (design_text_lines frepr p d H) as (cl & C & L). unfold design_text in T. rewrite L in T. cbn [bind] in T.
  eexists. split; [exact L|]. apply okinj in T. subst text. apply lines_of_join; [discriminate|].
  apply one_line_iff in RM. assert (RF' : forall x, clean (frepr x)) by (intros x; apply one_line_iff, RF).
  assert (RT : clean tab) by reflexivity.
  assert (E : par d = p) by (apply mk_design_iff in H as [_ ->]; reflexivity).
  rewrite !Forall_app. repeat match goal with |- _ /\ _ => split end.
  - repeat constructor; repeat (apply clean_app; [reflexivity|]); auto using dec_clean, md5_clean. 
    unfold experiment_type. destruct (crossover p); [reflexivity|]. destruct (0 <? pretest p); reflexivity.
  - unfold crossover_lines in C. destruct (crossover p); [|apply okinj in C; subst; constructor].
    destruct (washout p); [|discriminate]. apply okinj in C. subst cl.
    repeat constructor; repeat (apply clean_app; [reflexivity|]); auto using dec_clean, ints_clean; apply clean_app; auto using dec_clean, ints_clean; reflexivity.
  - repeat constructor.
  - unfold trimming_lines. rewrite E. destruct (n_before p =? n_post d).
    + repeat constructor. apply clean_app; [reflexivity|]. apply clean_app; [reflexivity|]. apply dec_clean.
    + rewrite !Forall_app. repeat match goal with |- _ /\ _ => split end.
      * repeat constructor. repeat (apply clean_app; [reflexivity|]). apply dec_clean.
      * destruct (n_pre d <? n_before p); [|constructor]. rewrite !Forall_app. repeat match goal with |- _ /\ _ => split end.
        -- repeat constructor.
        -- destruct (fgtb (top p) f0); repeat constructor. repeat (apply clean_app; [reflexivity|]). apply clean_app; [apply percent_clean|].
           apply clean_app; [reflexivity|]. apply clean_app; [exact RM|reflexivity].
        -- destruct (fgtb (bottom p) f0); repeat constructor. repeat (apply clean_app; [reflexivity|]). apply clean_app; [apply percent_clean|].
           apply clean_app; [reflexivity|]. apply clean_app; [exact RM|reflexivity].
        -- repeat constructor. repeat (apply clean_app; [reflexivity|]). apply dec_clean.
      * destruct (n_post d <? n_pre d); repeat constructor.
        -- repeat (apply clean_app; [reflexivity|]). apply clean_app; [apply percent_clean|].
           apply clean_app; [reflexivity|]. apply clean_app; [exact RM|reflexivity].
        -- repeat (apply clean_app; [reflexivity|]). apply dec_clean.
  - repeat constructor; repeat (apply clean_app; [reflexivity|]); auto.
    destruct (salt p) as [s|] eqn:S; [|reflexivity]. apply one_line_iff. now apply RS.
Qed.

Lemma append_inj_r (a b c : string) : (a ++ c = b ++ c)%string -> a = b.
Proof.
  intros H. assert (L : String.length a = String.length b).
  { apply (f_equal String.length) in H. rewrite !append_length in H. lia. }
  revert b H L. induction a as [|x a IH]; intros [|y b] H L; try discriminate; auto.
  cbn in H. injection H as -> H. f_equal. apply IH; auto.
Qed.

(** decide whether two lines are equal by their constant beginnings *)
Fixpoint apart (a b : string) : bool :=
  match a, b with
  | String x a', String y b' => if Ascii.eqb x y then apart a' b' else true
  | _, _ => false
  end.
Lemma apart_app a b x y : apart a b = true -> (a ++ x)%string <> (b ++ y)%string.
Proof.
  revert b. induction a as [|c a IH]; intros [|e b]; try discriminate. cbn. destruct (Ascii.eqb_spec c e) as [->|N]; [|congruence].
  intros A E. injection E as E. now apply (IH b).
Qed.

Ltac lines_in :=
  repeat match goal with
  | H : In _ (_ ++ _) |- _ => apply in_app_iff in H; destruct H as [H|H]
  | H : In _ (if ?c then _ else _) |- _ => destruct c eqn:?
  | H : In _ (_ :: _) |- _ => destruct H as [H|H]
  | H : In _ [] |- _ => destruct H
  end.
Ltac not_this_line := match goal with H : _ = String _ _ |- _ => exfalso; cbn [tab append] in H; discriminate H end.

Section Reading.
Context (frepr : f64 -> string) (p : params) (d : design) (text : string).
Context (HD : mk_design p = Ok d) (HR : readable frepr p) (HT : design_text frepr d = Ok text).

Lemma says_lines line : says text line <->
  exists cl, crossover_lines p = Ok cl /\
    In (String "009" line) (["Design " ++ md5_hexdigest (repr_design frepr (set_salt d None)); "";
            tab ++ "Experiment type: " ++ experiment_type p; tab ++ "Primary metric: " ++ metric p;
            tab ++ "Number of weeks of data before start of experiment used for analysis: " ++ dec (pretest p);
            tab ++ "Total experiment runtime weeks: " ++ dec (runtime p)]%string
           ++ cl ++ [""; "Number of items for testing:"; ""] ++ trimming_lines d
           ++ [""; "Extra details:"; ""; tab ++ "Alpha threshold: " ++ frepr (alpha p); tab ++ "Power: " ++ frepr (power p);
               tab ++ "Coinflip salt: " ++ str_of_salt (salt p)]%string)%list.
Proof.
  destruct (text_lines frepr p d text HD HR HT) as (ls & L & E). unfold says. rewrite E.
  destruct (design_text_lines frepr p d HD) as (cl & C & L'). rewrite L' in L. apply okinj in L. subst ls. split.
  - intros H. exists cl. auto.
  - intros (cl' & C' & H). congruence.
Qed.

Lemma crossover_line line cl : crossover_lines p = Ok cl -> In line cl -> line = "" \/ line = "Crossover Details:" \/
  exists w, crossover p = true /\ washout p = Some w /\
    (line = tab ++ "Control and treatment to be swapped " ++ dec (runtime p / 2) ++ " weeks after starting the experiment" \/
     line = tab ++ "Number of crossover washout weeks to ignore at start of each period: " ++ dec w \/
     line = tab ++ "Weeks " ++ str_of_ints (printed_washout_weeks p w) ++ " are the washout weeks to be excluded from the analysis")%string.
Proof.
  unfold crossover_lines. intros C. destruct (crossover p) eqn:X; [|apply okinj in C; subst; intros []].
  destruct (washout p) as [w|] eqn:W; [|discriminate]. apply okinj in C. subst cl. intros H.
  lines_in; auto; right; right; exists w; auto 6.
Qed.

Lemma trimming_line line : In line (trimming_lines d) -> line = "" \/
  (n_before p = n_post d /\ (line = tab ++ "Number of items: " ++ dec (n_before p) \/ line = tab ++ "No hero / outlier trimming used")) \/
  (n_before p <> n_post d /\ line = tab ++ "Number of items eligible for experimentation (before trimming): " ++ dec (n_before p)) \/
  (n_before p <> n_post d /\ n_pre d < n_before p /\
     ((fgtb (top p) f0 = true /\ line = tab ++ "Top " ++ percent (top p) ++ " of items with highest " ++ metric p ++ " in pre-test period will not be included in experiment") \/
      (fgtb (bottom p) f0 = true /\ line = tab ++ "Bottom " ++ percent (bottom p) ++ " items with lowest " ++ metric p ++ " in pre-test period will not be included in experiment") \/
      line = tab ++ "Number of items remaining after trimming for the experiment: " ++ dec (n_pre d))) \/
  (n_before p <> n_post d /\ n_post d < n_pre d /\
     (line = tab ++ "Top and bottom " ++ percent (post p) ++ " of items with highest / lowest " ++ metric p ++ " during experiment runtime will be excluded from the analysis" \/
      line = tab ++ "Number of items remaining after trimming for the analysis: " ++ dec (n_post d)))%string.
Proof.
  unfold trimming_lines. assert (E : par d = p) by (apply mk_design_iff in HD as [_ ->]; reflexivity). rewrite E.
  destruct (Z.eqb_spec (n_before p) (n_post d)) as [N|N]; intros H.
  - lines_in; auto 6.
  - lines_in; repeat match goal with X : (_ <? _) = true |- _ => apply Z.ltb_lt in X end; auto 10.
Qed.

Lemma trimming_line_in line : 
  (n_before p = n_post d /\ (line = tab ++ "Number of items: " ++ dec (n_before p) \/ line = tab ++ "No hero / outlier trimming used")) \/
  (n_before p <> n_post d /\ line = tab ++ "Number of items eligible for experimentation (before trimming): " ++ dec (n_before p)) \/
  (n_before p <> n_post d /\ n_pre d < n_before p /\
     ((fgtb (top p) f0 = true /\ line = tab ++ "Top " ++ percent (top p) ++ " of items with highest " ++ metric p ++ " in pre-test period will not be included in experiment") \/
      (fgtb (bottom p) f0 = true /\ line = tab ++ "Bottom " ++ percent (bottom p) ++ " items with lowest " ++ metric p ++ " in pre-test period will not be included in experiment") \/
      line = tab ++ "Number of items remaining after trimming for the experiment: " ++ dec (n_pre d))) \/
  (n_before p <> n_post d /\ n_post d < n_pre d /\
     (line = tab ++ "Top and bottom " ++ percent (post p) ++ " of items with highest / lowest " ++ metric p ++ " during experiment runtime will be excluded from the analysis" \/
      line = tab ++ "Number of items remaining after trimming for the analysis: " ++ dec (n_post d)))%string ->
  In line (trimming_lines d).
Proof.
  unfold trimming_lines. assert (E : par d = p) by (apply mk_design_iff in HD as [_ ->]; reflexivity). rewrite E.
  intros H. destruct (Z.eqb_spec (n_before p) (n_post d)) as [N|N].
  - destruct H as [(_ & [->| ->])|[(X & _)|[(X & _)|(X & _)]]]; try contradiction; cbn [In]; auto.
  - rewrite !in_app_iff. destruct H as [(X & _)|[(_ & ->)|[(_ & L & H)|(_ & L & H)]]]; [contradiction|left; now left| |].
    + apply Z.ltb_lt in L. rewrite L. rewrite !in_app_iff. right; left. right. destruct H as [(T & ->)|[(T & ->)| ->]]; [|  |right; right; now left].
      * rewrite T. left. now left.
      * rewrite T. right; left. now left.
    + apply Z.ltb_lt in L. rewrite L. right; right. destruct H as [->| ->]; cbn [In]; auto.
Qed.

Lemma says_cases line : says text line ->
  (line = "Experiment type: " ++ experiment_type p \/ line = "Primary metric: " ++ metric p \/
   line = "Number of weeks of data before start of experiment used for analysis: " ++ dec (pretest p) \/
   line = "Total experiment runtime weeks: " ++ dec (runtime p) \/
   (exists w, crossover p = true /\ washout p = Some w /\
     (line = "Control and treatment to be swapped " ++ dec (runtime p / 2) ++ " weeks after starting the experiment" \/
      line = "Number of crossover washout weeks to ignore at start of each period: " ++ dec w \/
      line = "Weeks " ++ str_of_ints (printed_washout_weeks p w) ++ " are the washout weeks to be excluded from the analysis")) \/
   (n_before p = n_post d /\ (line = "Number of items: " ++ dec (n_before p) \/ line = "No hero / outlier trimming used")) \/
   (n_before p <> n_post d /\ line = "Number of items eligible for experimentation (before trimming): " ++ dec (n_before p)) \/
   (n_before p <> n_post d /\ n_pre d < n_before p /\
     ((fgtb (top p) f0 = true /\ line = "Top " ++ percent (top p) ++ " of items with highest " ++ metric p ++ " in pre-test period will not be included in experiment") \/
      (fgtb (bottom p) f0 = true /\ line = "Bottom " ++ percent (bottom p) ++ " items with lowest " ++ metric p ++ " in pre-test period will not be included in experiment") \/
      line = "Number of items remaining after trimming for the experiment: " ++ dec (n_pre d))) \/
   (n_before p <> n_post d /\ n_post d < n_pre d /\
     (line = "Top and bottom " ++ percent (post p) ++ " of items with highest / lowest " ++ metric p ++ " during experiment runtime will be excluded from the analysis" \/
      line = "Number of items remaining after trimming for the analysis: " ++ dec (n_post d))) \/
   line = "Alpha threshold: " ++ frepr (alpha p) \/ line = "Power: " ++ frepr (power p) \/
   line = "Coinflip salt: " ++ str_of_salt (salt p))%string.
Proof.
  assert (TT : forall a b, String "009" a = (tab ++ b)%string -> a = b) by (intros a b X; now injection X).
  assert (TN : forall a b, (tab ++ b)%string = String "009" a -> a = b) by (intros a b X; symmetry in X; auto).
  intros H. apply says_lines in H as (cl & C & H). rewrite !in_app_iff in H. destruct H as [H|[H|[H|[H|H]]]].
  - destruct H as [H|[H|[H|[H|[H|[H|[]]]]]]].
    + exfalso. revert H. apply (apart_app "Design " (String "009" "")). reflexivity.
    + discriminate H.
    + left. now apply TN in H.
    + right; left. now apply TN in H.
    + do 2 right; left. now apply TN in H.
    + do 3 right; left. now apply TN in H.
  - destruct (crossover_line _ _ C H) as [E|[E|(w & X & W & E)]]; try discriminate E.
    do 4 right. left. exists w. split; auto. split; auto. destruct E as [E|[E|E]]; apply TT in E; [left|right; left|right; right]; exact E.
  - destruct H as [H|[H|[H|[]]]]; discriminate H.
  - destruct (trimming_line _ H) as [E|[(N & E)|[(N & E)|[(N & L & E)|(N & L & E)]]]].
    + discriminate E.
    + do 5 right. left. split; auto. destruct E as [E|E]; apply TT in E; auto.
    + do 6 right. left. split; auto.
    + do 7 right. left. split; auto. split; auto. destruct E as [(T & E)|[(T & E)|E]]; apply TT in E; auto.
    + do 8 right. left. split; auto. split; auto. destruct E as [E|E]; apply TT in E; auto.
  - do 9 right. destruct H as [H|[H|[H|[H|[H|[H|[]]]]]]]; try discriminate H; apply TN in H; [left|right; left|right; right]; exact H.
Qed.

Lemma says_head line :
  (line = "Experiment type: " ++ experiment_type p \/ line = "Primary metric: " ++ metric p \/
   line = "Number of weeks of data before start of experiment used for analysis: " ++ dec (pretest p) \/
   line = "Total experiment runtime weeks: " ++ dec (runtime p) \/
   line = "Alpha threshold: " ++ frepr (alpha p) \/ line = "Power: " ++ frepr (power p) \/
   line = "Coinflip salt: " ++ str_of_salt (salt p))%string -> says text line.
Proof.
  intros H. apply says_lines. destruct (design_text_lines frepr p d HD) as (cl & C & _). exists cl. split; auto.
  rewrite !in_app_iff. destruct H as [->|[->|[->|[->|H]]]]; [left; cbn [In tab append]; auto 10..|].
  do 4 right. cbn [In]. destruct H as [->|[->| ->]]; auto 10.
Qed.
Lemma says_crossover w line : crossover p = true -> washout p = Some w ->
  (line = "Control and treatment to be swapped " ++ dec (runtime p / 2) ++ " weeks after starting the experiment" \/
   line = "Number of crossover washout weeks to ignore at start of each period: " ++ dec w \/
   line = "Weeks " ++ str_of_ints (printed_washout_weeks p w) ++ " are the washout weeks to be excluded from the analysis")%string ->
  says text line.
Proof.
  intros X W H. apply says_lines. destruct (design_text_lines frepr p d HD) as (cl & C & _). exists cl. split; auto.
  rewrite !in_app_iff. right; left. unfold crossover_lines in C. rewrite X, W in C. apply okinj in C. subst cl. cbn [In].
  destruct H as [->|[->| ->]]; auto 10.
Qed.
Lemma says_trimming line : In (String "009" line) (trimming_lines d) -> says text line.
Proof.
  intros H. apply says_lines. destruct (design_text_lines frepr p d HD) as (cl & C & _). exists cl. split; auto.
  rewrite !in_app_iff. auto.
Qed.
End Reading.

Ltac cases H :=
  repeat match type of H with
  | _ \/ _ => destruct H as [H|H]
  | _ /\ _ => let X := fresh "X" in destruct H as [X H]
  | exists _, _ => let w := fresh "w" in destruct H as [w H]
  end.
Ltac other H := first [discriminate H | cbn [append] in H; discriminate H].

(** C90: what can be read in the text *)
Theorem c90_what_the_text_says :
  forall frepr p d text, mk_design p = Ok d -> readable frepr p -> design_text frepr d = Ok text ->
    (says text "Experiment type: crossover experiment" <-> crossover p = true) /\
    (says text "Experiment type: regular experiment (CUPED adjusted)" <-> crossover p = false /\ 0 < pretest p) /\
    (says text "Experiment type: regular experiment" <-> crossover p = false /\ pretest p = 0) /\
    (forall m, says text ("Primary metric: " ++ m) <-> m = metric p) /\
    (forall z, shows text "Number of weeks of data before start of experiment used for analysis: " z <-> z = pretest p) /\
    (forall z, shows text "Total experiment runtime weeks: " z <-> z = runtime p) /\
    (forall s, says text ("Alpha threshold: " ++ s) <-> s = frepr (alpha p)) /\
    (forall s, says text ("Power: " ++ s) <-> s = frepr (power p)) /\
    (forall s, says text ("Coinflip salt: " ++ s) <-> s = match salt p with None => "None" | Some x => x end).
Proof.
  intros frepr p d text H R T. assert (SC := says_cases frepr p d text H R T). assert (SH := says_head frepr p d text H R T).
  assert (V := proj1 (proj1 (mk_design_iff p d) H)). assert (P0 := ok_pretest p V). assert (R0 := ok_runtime p V).
  assert (TY : forall t, says text ("Experiment type: " ++ t) <-> t = experiment_type p).
  { intros t. split; [|intros ->; apply SH; auto]. intros X. apply SC in X. cases X; try other X. now apply append_inj_l in X. }
  split; [|split; [|split]].
  1: change "Experiment type: crossover experiment" with ("Experiment type: " ++ "crossover experiment").
  2: change "Experiment type: regular experiment (CUPED adjusted)" with ("Experiment type: " ++ "regular experiment (CUPED adjusted)").
  3: change "Experiment type: regular experiment" with ("Experiment type: " ++ "regular experiment").
  1-3: rewrite TY; unfold experiment_type; destruct (crossover p); [|destruct (Z.ltb_spec 0 (pretest p))];
    split; try discriminate; intros Q; try reflexivity; try discriminate (proj1 Q); try (split; [reflexivity|lia]); try lia.
  split; [|split; [|split; [|split; [|split]]]].
  - intros m. split; [|intros ->; apply SH; auto]. intros X. apply SC in X. cases X; try other X. now apply append_inj_l in X.
  - intros z. split.
    + intros (s & X & N). apply SC in X. cases X; try other X. apply append_inj_l in X. subst s. apply (numeral_fun _ _ _ N). now apply numeral_dec.
    + intros ->. exists (dec (pretest p)). split; [apply SH; auto|now apply numeral_dec].
  - intros z. split.
    + intros (s & X & N). apply SC in X. cases X; try other X. apply append_inj_l in X. subst s. apply (numeral_fun _ _ _ N). apply numeral_dec. lia.
    + intros ->. exists (dec (runtime p)). split; [apply SH; auto|apply numeral_dec; lia].
  - intros m. split; [|intros ->; apply SH; auto 10]. intros X. apply SC in X. cases X; try other X. now apply append_inj_l in X.
  - intros m. split; [|intros ->; apply SH; auto 10]. intros X. apply SC in X. cases X; try other X. now apply append_inj_l in X.
  - intros m. split; [|intros ->; apply SH; auto 10]. intros X. apply SC in X. cases X; try other X. now apply append_inj_l in X.
Qed.
