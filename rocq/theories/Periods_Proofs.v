From Coq Require Import ZArith List String Bool Lia FinFun Permutation.
Require Import Verif.Base Verif.Num Verif.Frame Verif.F64 Verif.Design_Model Verif.Design_Spec
  Verif.Design_Proofs Verif.Periods_Model.
Import ListNotations.
Open Scope string_scope.
Open Scope Z_scope.

Lemma gwb_spec w a b : reflect (a <= w <= b) (get_weeks_between w a b).
Proof.
  unfold get_weeks_between. apply iff_reflect. rewrite andb_true_iff, !Z.leb_le. tauto.
Qed.

(** week [w] is the i-th week counted from [s] for some 0 <= i < k *)
Definition in_span (s k w : Z) : Prop := s <= w < s + k.

Definition regular_spec (start pre run w : Z) (l : option string) : Prop :=
  (l = Some "pretest" /\ in_span (start - pre) pre w) \/
  (l = Some "test" /\ in_span start run w) \/
  (l = None /\ ~ in_span (start - pre) (pre + run) w).

Lemma regular_label_spec start pre run w : 0 <= pre -> 0 <= run ->
  regular_spec start pre run w (regular_label start pre run w).
Proof.
  intros Hp Hr. unfold regular_label, regular_spec, in_span, overwrite.
  destruct (gwb_spec w start (start + run - 1)); [right; left; split; auto; lia|].
  destruct (gwb_spec w (start - pre) (start - 1)); [left; split; auto; lia|].
  right; right. split; auto. lia.
Qed.

(** consecutive spans of the runtime: wash, half-wash, wash, half-wash *)
Definition crossover_spec (start pre half wash w : Z) (l : option string) : Prop :=
  (l = Some "pretest" /\ in_span (start - pre) pre w) \/
  (l = Some "washout_1" /\ in_span start wash w) \/
  (l = Some "test_1" /\ in_span (start + wash) (half - wash) w) \/
  (l = Some "washout_2" /\ in_span (start + half) wash w) \/
  (l = Some "test_2" /\ in_span (start + half + wash) (half - wash) w) \/
  (l = None /\ ~ in_span (start - pre) (pre + 2 * half) w).

Lemma crossover_label_spec start pre half wash w :
  0 <= pre -> 0 <= wash -> wash < half ->
  crossover_spec start pre half wash w (crossover_label start pre (2 * half) wash w).
Proof.
  intros Hp Hw Hh. unfold crossover_label, overwrite.
  replace (2 * half - 2 * wash) with ((half - wash) * 2) by ring. rewrite Z.div_mul by lia.
  unfold crossover_spec, in_span.
  destruct (gwb_spec w (start + wash + (half - wash) - 1 + 1 + wash) (start + wash + (half - wash) - 1 + 1 + wash + (half - wash) - 1));
    [right; right; right; right; left; split; auto; lia|].
  destruct (gwb_spec w (start + wash + (half - wash) - 1 + 1) (start + wash + (half - wash) - 1 + 1 + wash - 1));
    [right; right; right; left; split; auto; lia|].
  destruct (gwb_spec w (start + wash) (start + wash + (half - wash) - 1));
    [right; right; left; split; auto; lia|].
  destruct (gwb_spec w start (start + wash - 1)); [right; left; split; auto; lia|].
  destruct (gwb_spec w (start - pre) (start - 1)); [left; split; auto; lia|].
  right; right; right; right; right. split; auto. lia.
Qed.

(** number of weeks with a label: the weeks carrying label [x] are exactly a span *)
Lemma crossover_label_iff start pre half wash w :
  0 <= pre -> 0 <= wash -> wash < half ->
  let l := crossover_label start pre (2 * half) wash w in
  (l = Some "pretest" <-> in_span (start - pre) pre w) /\
  (l = Some "washout_1" <-> in_span start wash w) /\
  (l = Some "test_1" <-> in_span (start + wash) (half - wash) w) /\
  (l = Some "washout_2" <-> in_span (start + half) wash w) /\
  (l = Some "test_2" <-> in_span (start + half + wash) (half - wash) w) /\
  (l = None <-> ~ in_span (start - pre) (pre + 2 * half) w).
Proof.
  intros Hp Hw Hh l. generalize (crossover_label_spec start pre half wash w Hp Hw Hh). fold l.
  unfold crossover_spec, in_span. clearbody l.
  intros H. repeat split; intros;
  repeat match goal with H : _ \/ _ |- _ => destruct H as [H|H] end;
  repeat match goal with H : _ /\ _ |- _ => destruct H end; subst; auto; try discriminate; try lia.
Qed.

Lemma regular_label_iff start pre run w : 0 <= pre -> 0 <= run ->
  let l := regular_label start pre run w in
  (l = Some "pretest" <-> in_span (start - pre) pre w) /\
  (l = Some "test" <-> in_span start run w) /\
  (l = None <-> ~ in_span (start - pre) (pre + run) w).
Proof.
  intros Hp Hr l. generalize (regular_label_spec start pre run w Hp Hr). fold l.
  unfold regular_spec, in_span. clearbody l.
  intros H. repeat split; intros;
  repeat match goal with H : _ \/ _ |- _ => destruct H as [H|H] end;
  repeat match goal with H : _ /\ _ |- _ => destruct H end; subst; auto; try discriminate; try lia.
Qed.

Lemma zrange_In a b x : In x (zrange a b) <-> a <= x < b.
Proof.
  unfold zrange. rewrite in_map_iff. split.
  - intros (i & <- & H). apply in_seq in H. lia.
  - intros H. exists (Z.to_nat (x - a)). split; [lia|]. apply in_seq. lia.
Qed.

Lemma zrange_NoDup a b : NoDup (zrange a b).
Proof.
  unfold zrange. apply FinFun.Injective_map_NoDup; [|apply seq_NoDup].
  intros x y H. lia.
Qed.

Lemma zrange_length a b : List.length (zrange a b) = Z.to_nat (b - a).
Proof. unfold zrange. now rewrite map_length, seq_length. Qed.

Lemma filter_span a k lo hi (P : Z -> bool) :
  (forall w, P w = true <-> a <= w < a + k) -> lo <= a -> a + k <= hi -> 0 <= k ->
  List.length (filter P (zrange lo hi)) = Z.to_nat k.
Proof.
  intros HP Hlo Hhi Hk.
  assert (E : Permutation.Permutation (filter P (zrange lo hi)) (zrange a (a + k))).
  { apply Permutation.NoDup_Permutation.
    - apply NoDup_filter, zrange_NoDup.
    - apply zrange_NoDup.
    - intros w. rewrite filter_In, !zrange_In, HP. lia. }
  rewrite (Permutation.Permutation_length E), zrange_length. f_equal. lia.
Qed.

(** labels that mark the experiment start in plots never occur before the start week, and the
    start week carries one of them *)
Lemma plot_label_from_start p start lab : 0 <= pretest p -> 0 < runtime p ->
  (crossover p = true -> exists w h, washout p = Some w /\ runtime p = 2 * h /\ 0 <= w < h) ->
  label_fun p start = Ok lab ->
  (forall w, plot_start_label (lab w) = true -> start <= w) /\ plot_start_label (lab start) = true.
Proof.
  intros Hp Hr Hc L. unfold label_fun in L. destruct (crossover p).
  - destruct (Hc eq_refl) as (wash & h & E & R & W). rewrite E in L. inversion L; subst lab. rewrite R.
    split.
    + intros w. generalize (crossover_label_spec start (pretest p) h wash w). intros S.
      assert (S' := S ltac:(lia) ltac:(lia) ltac:(lia)). clear S. unfold crossover_spec, in_span in S'.
      intros Q. repeat (destruct S' as [S'|S']; [destruct S' as [S1 S2]; rewrite S1 in Q; try lia; discriminate Q|]).
      destruct S' as [S1 _]. rewrite S1 in Q. discriminate Q.
    + destruct (crossover_label_iff start (pretest p) h wash start) as (_ & A & B & _); try lia.
      unfold in_span in *. destruct (Z.eq_dec wash 0) as [->|N].
      * rewrite (proj2 B) by lia. reflexivity.
      * rewrite (proj2 A) by lia. reflexivity.
  - inversion L; subst lab. split.
    + intros w. generalize (regular_label_spec start (pretest p) (runtime p) w). intros S.
      assert (S' := S ltac:(lia) ltac:(lia)). clear S. unfold regular_spec, in_span in S'.
      intros Q. repeat (destruct S' as [S'|S']; [destruct S' as [S1 S2]; rewrite S1 in Q; try lia; discriminate Q|]).
      destruct S' as [S1 _]. rewrite S1 in Q. discriminate Q.
    + destruct (regular_label_iff start (pretest p) (runtime p) start) as (_ & A & _); try lia.
      unfold in_span in *. rewrite (proj2 A) by lia. reflexivity.
Qed.

Lemma zmin_list_spec l m : zmin_list l = Some m <-> In m l /\ forall x, In x l -> m <= x.
Proof.
  revert m. induction l as [|a l IH]; intros m; simpl.
  - split; [discriminate | tauto].
  - destruct (zmin_list l) as [y|] eqn:E.
    + destruct (proj1 (IH y) eq_refl) as [Y1 Y2]. split.
      * intros H. inversion H; subst. split.
        -- destruct (Z.min_spec a y) as [[? ->]|[? ->]]; auto.
        -- intros x [->|Hx]; [lia|]. specialize (Y2 x Hx). lia.
      * intros [H1 H2]. f_equal. destruct H1 as [->|H1].
        -- assert (m <= y) by auto. lia.
        -- assert (m <= a) by auto. assert (m <= y) by auto. specialize (Y2 m H1). lia.
    + destruct l as [|b l].
      * split.
        -- intros H; inversion H; subst. split; auto. intros x [->|[]]; lia.
        -- intros [[->|[]] _]. reflexivity.
      * simpl in E. destruct (zmin_list l); discriminate.
Qed.
