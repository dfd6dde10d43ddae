(** C73: what the simulations estimate from the historical data. *)
From Coq Require Import ZArith Reals Lra Lia List String Bool Permutation Sorting.Sorted.
From Flocq Require Import Core BinarySingleNaN.
Require Import Verif.Base Verif.Num Verif.NumOrd Verif.F64 Verif.Frame Verif.ListLib Verif.Design_Model Verif.Design_Spec Verif.Design_Proofs Verif.Design_Yaml_Proofs Verif.Design_Props
  Verif.Trimmed_Model Verif.Trimmed_Spec Verif.Moments Verif.Trimmed_Proofs Verif.Trimmed_Real Verif.Trimmed_Props
  Verif.Cuped_Model Verif.Cuped_Props Verif.Stats_Model Verif.Stats_Num Verif.Stats_Props Verif.Tests_Proofs
  Verif.Tests_Props Verif.Pivot_Model Verif.Analysis_Spec Verif.Analysis_Model Verif.Analysis_Props Verif.Effect_Props
  Verif.Simulation_Model.
Import ListNotations.
Open Scope string_scope.
Open Scope list_scope.
Open Scope R_scope.

(** *** The statistics of one start week *)
Lemma metric_values_holds {K} (t : table K) m s v : NoDup (t_cols t) -> holds t (m, s) v -> metric_values t m s = Ok v.
Proof.
  intros ND (i & Hi & F). unfold metric_values. rewrite (column_index_nth _ _ i ND Hi). f_equal. now apply column_at_holds.
Qed.
Lemma metric_values_none {K} (t : table K) m s : ~ In (m, s) (t_cols t) -> metric_values t m s = Err (KeyError s).
Proof. intros H. unfold metric_values. now rewrite column_index_none. Qed.

Lemma holds_length {K} (t : table K) c v : holds t c v -> List.length v = List.length (t_rows t).
Proof. intros (i & _ & F). induction F; simpl; congruence. Qed.
Lemma holds_data {K} (t : table K) c c' xs ys : holds t c (data xs) -> holds t c' (data ys) -> List.length xs = List.length ys.
Proof. intros H1 H2. apply holds_length in H1, H2. unfold data in *. rewrite map_length in *. congruence. Qed.

Lemma zip_differences a b : zip_with nsub a b = differences a b.
Proof. reflexivity. Qed.

Lemma vec_hd l : vec l 0 = hd NaN l.
Proof. now destruct l. Qed.

Section Stats.
Context (argsort : list num -> list nat) (HS : sorts argsort).
Context (p : params) (d : design) (HD : mk_design p = Ok d).

Lemma par_design : par d = p.
Proof. now destruct (proj1 (mk_design_iff p d) HD) as [_ ->]. Qed.
Lemma post_items : (50 < n_post d)%Z.
Proof. destruct (proj1 (mk_design_iff p d) HD) as [D ->]. exact (ok_items _ D). Qed.
Lemma post_positive : fgtb (post p) f0 = true <-> 0 < B2R (post p).
Proof.
  destruct (proj1 (mk_design_iff p d) HD) as [D _]. destruct (ok_finite _ D) as (_ & _ & F). destruct f0_val as [F0 V0].
  unfold fgtb. change (fltb f0 (post p) = true <-> 0 < B2R (post p)). rewrite fltb_fin by auto. now rewrite V0.
Qed.

(** the design's trimming applied to [n] rows *)
Lemma design_array n rows : rows <> [] -> (forall r, In r rows -> List.length r = n) -> Z.of_nat n = n_pre d -> (n_pre d <= 2 ^ 53)%Z -> (0 < n)%nat ->
  exists t, mk_trimmed argsort rows (post p) = Ok t /\ Trimmed_Model.t_rows t = rows /\ Z.of_nat (t_k t) = trim_each n (post p) /\
    (2 * t_k t < n)%nat /\ t_len argsort t = (n - 2 * t_k t)%nat /\ Z.of_nat (n - 2 * t_k t) = n_post d.
Proof.
  intros NR HR EN LB L0.
  assert (A : array n rows) by (split; auto; split; auto; split; auto; lia).
  destruct (mk_trimmed_usable argsort rows (post p) n HS) as (t & Ht & ER & EK & H2); auto.
  { apply (usable_design_post p d); auto. lia. }
  exists t. split; auto. split; auto. split; auto. split; auto.
  destruct (c43_trims_floor_of_quantile_times_n argsort rows (post p) n t HS A Ht) as (_ & _ & EL & _). split; auto.
  destruct (c43_same_count_as_the_design argsort p d rows n HS HD A EN) as (t' & Ht' & EP). assert (t' = t) by congruence. subst t'. now rewrite <- EL.
Qed.

Lemma one_less h : (50 < Z.of_nat h)%Z -> IZR (Z.of_nat h - 1) = INR h - 1 /\ INR h - 1 <> 0.
Proof.
  intros H. rewrite minus_IZR, <- INR_IZR_INZ. split; auto. assert (X : (50 < h)%nat) by lia. apply lt_INR in X.
  change 50%nat with (Z.to_nat 50) in X. rewrite (INR_IZR_INZ (Z.to_nat 50)) in X. simpl in X. lra.
Qed.

(** the difference of the period means enters the variance only when the design trims *)
Definition mean_gap_term (k : nat) (s : list R) : R := if Rlt_dec 0 (B2R (post p)) then tmean k s ^ 2 / 4 else 0.

Theorem c73_crossover_statistics :
  forall (t : table ikey) xs ys s, crossover p = true -> NoDup (t_cols t) ->
    holds t (metric p, "test_1") (data xs) -> holds t (metric p, "test_2") (data ys) ->
    Z.of_nat (List.length xs) = n_pre d -> (n_pre d <= 2 ^ 53)%Z -> xs <> [] -> sorted_as (minus xs ys) s ->
    exists k kept, let h := (List.length xs - 2 * k)%nat in
      Z.of_nat k = trim_each (List.length xs) (post p) /\ Z.of_nat h = n_post d /\
      (* [kept]: the positions left after trimming k differences on each side *)
      StronglySorted lt kept /\ (forall i, In i kept -> (i < List.length xs)%nat) /\ List.length kept = h /\
      Permutation (rtake kept (minus xs ys)) (middle k s) /\
      primary_metric_stats argsort d t =
        Ok (Fin ((avg (rtake kept xs) + avg (rtake kept ys)) / 2), Fin (tdev k (minus xs ys) s / (INR h - 1) + mean_gap_term k s), h).
Proof.
  intros t xs ys s CR ND H1 H2 EN LB NE SS.
  assert (LT : List.length xs = List.length ys) by exact (holds_data _ _ _ _ _ H1 H2).
  assert (LM := minus_length xs ys LT). assert (L0 : (0 < List.length xs)%nat) by (destruct xs; [congruence|simpl; lia]).
  assert (RL : forall r, In r [data (minus xs ys); data xs; data ys] -> List.length r = List.length xs).
  { intros r [<-|[<-|[<-|[]]]]; unfold data; rewrite map_length; congruence. }
  destruct (design_array (List.length xs) [data (minus xs ys); data xs; data ys]) as (tr & Ht & ER & EK & HK & EL & EP); auto; [discriminate|].
  assert (FT : finite_trimmed tr [minus xs ys; xs; ys] (List.length xs) (t_k tr)).
  { constructor; auto; [discriminate|]. intros r [<-|[<-|[<-|[]]]]; congruence. }
  exists (t_k tr), (t_kept argsort tr). cbv zeta. split; auto. split; auto.
  assert (SZ : sample_size (Trimmed_Model.t_rows tr) = List.length xs).
  { rewrite ER. unfold sample_size. cbn [hd]. unfold data. now rewrite map_length. }
  split; [apply kept_sorted; auto|].
  assert (KL : forall i, In i (t_kept argsort tr) -> (i < List.length xs)%nat).
  { intros i Hi. apply (kept_lt argsort HS) in Hi. now rewrite SZ in Hi. }
  split; auto. assert (KN : List.length (t_kept argsort tr) = (List.length xs - 2 * t_k tr)%nat).
  { unfold t_kept. rewrite kept_length; auto; rewrite SZ; lia. }
  split; auto. split. { destruct SS as [P SS]. exact (kept_middle argsort HS tr _ _ _ FT s P SS). }
  destruct (first_row argsort HS tr _ _ s FT SS) as [FM FV]. cbn [hd] in FM, FV.
  assert (KE : t_kept argsort tr <> []) by (intros E; rewrite E in KN; simpl in KN; lia).
  destruct (minus_av xs ys (t_kept argsort tr) LT KE KL) as [MA _].
  assert (P50 := post_items). destruct (one_less (List.length xs - 2 * t_k tr)) as [E1 E0]; [lia|].
  unfold primary_metric_stats. rewrite par_design, CR.
  rewrite (metric_values_holds t _ _ _ ND H1), (metric_values_holds t _ _ _ ND H2). cbn [bind].
  rewrite zip_differences, differences_data, Ht. cbn [bind fst snd].
  rewrite (mean_entry argsort HS tr _ _ 1 xs FT eq_refl), (mean_entry argsort HS tr _ _ 2 ys FT eq_refl).
  rewrite (var_entry argsort HS tr _ _ 0 (minus xs ys) FT eq_refl), EL, E1, (ndiv_fin _ _ E0), FV.
  rewrite EP, Z.eqb_refl. cbn [negb raise_if bind]. cbn [nadd nsub nneg nmul]. rewrite (ndiv_fin _ 4) by lra.
  assert (EF : forall x y : R, x = y -> Fin x = Fin y) by congruence. f_equal. f_equal. f_equal; [apply EF; lra|].
  unfold mean_gap_term. rewrite <- FM, MA. destruct (fgtb (post p) f0) eqn:EG.
  - apply post_positive in EG. destruct (Rlt_dec _ _) as [_|N]; [|contradiction]. cbn [nadd]. apply EF. field. exact E0.
  - destruct (Rlt_dec _ _) as [Y|_]; [apply post_positive in Y; congruence|]. apply EF. lra.
Qed.

(** a regular design, on the values that are used (adjusted or not) *)
Lemma regular_stats_of (t : table ikey) xs ys : crossover p = false -> NoDup (t_cols t) ->
  holds t (metric p, "test") (data xs) -> List.length ys = List.length xs ->
  match metric_values t (metric p) "pretest" with
  | Ok pre => apply_cuped_adjustment argsort (data xs) pre (post p)
  | Err _ => Ok (data xs)
  end = Ok (data ys) ->
  Z.of_nat (List.length xs) = n_pre d -> (n_pre d <= 2 ^ 53)%Z -> xs <> [] ->
  exists k, let h := (List.length xs - 2 * k)%nat in
    Z.of_nat k = trim_each (List.length xs) (post p) /\ (2 * k < List.length xs)%nat /\ Z.of_nat h = n_post d /\ INR h - 1 > 0 /\
    forall s, sorted_as ys s ->
    primary_metric_stats argsort d t = Ok (Fin (tmean k s), Fin (tdev k ys s / (INR h - 1)), h).
Proof.
  intros CR ND H1 LY HA EN LB NE. assert (L0 : (0 < List.length xs)%nat) by (destruct xs; [congruence|simpl; lia]).
  destruct (design_array (List.length xs) [data ys]) as (tr & Ht & ER & EK & HK & EL & EP); auto; [discriminate| |].
  { intros r [<-|[]]. unfold data. now rewrite map_length. }
  assert (FT : finite_trimmed tr [ys] (List.length xs) (t_k tr)).
  { constructor; auto; [discriminate|]. intros r [<-|[]]; congruence. }
  exists (t_k tr). cbv zeta. split; auto. split; auto. split; auto.
  assert (P50 := post_items). destruct (one_less (List.length xs - 2 * t_k tr)) as [E1 E0]; [lia|].
  split. { assert (1 < INR (List.length xs - 2 * t_k tr)); [|lra]. apply (lt_INR 1). lia. }
  intros s SS. destruct (first_row argsort HS tr _ _ s FT SS) as [FM FV]. cbn [hd] in FM, FV.
  unfold primary_metric_stats. rewrite par_design, CR. rewrite (metric_values_holds t _ _ _ ND H1). cbn [bind].
  rewrite HA. cbn [bind]. change [data ys] with (fins [ys]) in Ht. change [data ys] with (fins [ys]). rewrite Ht. cbn [bind fst snd].
  rewrite (mean_entry argsort HS tr _ _ 0 ys FT eq_refl), (var_entry argsort HS tr _ _ 0 ys FT eq_refl), EL, E1, (ndiv_fin _ _ E0), FV, FM.
  rewrite EP, Z.eqb_refl. reflexivity.
Qed.

(** without pretest weeks: the trimmed mean and winsorized variance of the test period *)
Theorem c73_regular_statistics :
  forall (t : table ikey) xs s, crossover p = false -> NoDup (t_cols t) ->
    holds t (metric p, "test") (data xs) -> ~ In (metric p, "pretest") (t_cols t) ->
    Z.of_nat (List.length xs) = n_pre d -> (n_pre d <= 2 ^ 53)%Z -> xs <> [] -> sorted_as xs s ->
    exists k, let h := (List.length xs - 2 * k)%nat in
      Z.of_nat k = trim_each (List.length xs) (post p) /\ Z.of_nat h = n_post d /\
      primary_metric_stats argsort d t = Ok (Fin (tmean k s), Fin (tdev k xs s / (INR h - 1)), h).
Proof.
  intros t xs s CR ND H1 NP EN LB NE SS.
  destruct (regular_stats_of t xs xs CR ND H1 eq_refl) as (k & A & _ & B & _ & C); auto.
  { now rewrite (metric_values_none _ _ _ NP). }
  exists k. cbv zeta. auto.
Qed.

(** with pretest weeks and no trimming: the mean, and the variance reduced by the correlation *)
Theorem c73_regular_statistics_with_pretest :
  forall (t : table ikey) xs cs, crossover p = false -> NoDup (t_cols t) ->
    holds t (metric p, "test") (data xs) -> holds t (metric p, "pretest") (data cs) ->
    Z.of_nat (List.length xs) = n_pre d -> (n_pre d <= 2 ^ 53)%Z -> trim_each (List.length xs) (post p) = 0%Z -> sqdev cs <> 0 ->
    primary_metric_stats argsort d t =
      Ok (Fin (avg xs), Fin ((sqdev xs - codev xs cs ^ 2 / sqdev cs) / (INR (List.length xs) - 1)), List.length xs).
Proof.
  intros t xs cs CR ND H1 H2 EN LB TE SC.
  assert (LC : List.length cs = List.length xs) by exact (holds_data _ _ _ _ _ H2 H1).
  assert (NC : cs <> []) by (intros ->; apply SC; reflexivity).
  assert (NE : xs <> []) by (intros ->; destruct cs; [congruence|discriminate]).
  assert (L0 : (0 < List.length xs)%nat) by (destruct xs; [congruence|simpl; lia]).
  assert (U : usable (List.length xs) (post p)) by (apply (usable_design_post p d); auto; lia).
  assert (L2 : (2 <= List.length xs)%nat).
  { destruct cs as [|c0 [|c1 cs]]; [congruence| |simpl in LC; lia]. exfalso. apply SC. unfold sqdev, avg. simpl. field. }
  destruct (c48_without_trimming argsort xs cs (post p) _ HS U TE eq_refl LC L2 SC) as (y & HY & LY & AY & _ & SY & _).
  destruct (regular_stats_of t xs y CR ND H1 LY) as (k & A & B & Hh & P & C); auto.
  { rewrite (metric_values_holds t _ _ _ ND H2). exact HY. }
  destruct (sorted_exists y) as (s & SS). specialize (C s SS). assert (k = 0%nat) by lia. subst k.
  rewrite Nat.mul_0_r, Nat.sub_0_r in *. rewrite C. rewrite (tmean_0 y s SS), AY, (tdev_0 y s SS). 
  assert (E : sqdev y = sqdev xs - codev xs cs ^ 2 / sqdev cs) by (apply (Rmult_eq_reg_r (sqdev cs)); auto; rewrite SY; field; auto).
  now rewrite E.
Qed.

(** with pretest weeks and trimming: the trimmed mean, and a variance that is not larger *)
Theorem c73_regular_statistics_with_pretest_and_trimming :
  forall (t : table ikey) xs cs s, crossover p = false -> NoDup (t_cols t) ->
    holds t (metric p, "test") (data xs) -> holds t (metric p, "pretest") (data cs) ->
    Z.of_nat (List.length xs) = n_pre d -> (n_pre d <= 2 ^ 53)%Z -> (0 < trim_each (List.length xs) (post p))%Z -> xs <> [] -> sorted_as xs s ->
    exists k v, let h := (List.length xs - 2 * k)%nat in
      Z.of_nat k = trim_each (List.length xs) (post p) /\ Z.of_nat h = n_post d /\
      v <= tdev k xs s / (INR h - 1) /\
      primary_metric_stats argsort d t = Ok (Fin (tmean k s), Fin v, h).
Proof.
  intros t xs cs s CR ND H1 H2 EN LB TE NE SS.
  assert (LC : List.length cs = List.length xs) by exact (holds_data _ _ _ _ _ H2 H1).
  assert (L0 : (0 < List.length xs)%nat) by (destruct xs; [congruence|simpl; lia]).
  assert (U : usable (List.length xs) (post p)) by (apply (usable_design_post p d); auto; lia).
  destruct (c49_trimmed_never_hurts argsort xs cs (post p) (List.length xs) (Z.to_nat (trim_each (List.length xs) (post p))) HS U)
    as (y & theta & off & HY & EY & V); [lia|lia|auto|auto|].
  destruct (regular_stats_of t xs y CR ND H1) as (k & A & B & Hh & P & C); auto.
  { rewrite EY, map_length, combine_length. lia. }
  { rewrite (metric_values_holds t _ _ _ ND H2). exact HY. }
  destruct (sorted_exists y) as (sy & SY). destruct (V s sy SS SY) as (V1 & V2 & _). replace (Z.to_nat _) with k in V1, V2 by lia.
  exists k, (tdev k y sy / (INR (List.length xs - 2 * k) - 1)). cbv zeta. split; auto. split; auto. split.
  - apply Rmult_le_compat_r; auto. left. apply Rinv_0_lt_compat. lra.
  - rewrite (C sy SY), V1. reflexivity.
Qed.

(** a constant pretest period and no trimming: nothing can be estimated, but no error is raised *)
Theorem c73_constant_pretest_gives_nan :
  forall (t : table ikey) xs cs, crossover p = false -> NoDup (t_cols t) ->
    holds t (metric p, "test") (data xs) -> holds t (metric p, "pretest") (data cs) ->
    Z.of_nat (List.length xs) = n_pre d -> (n_pre d <= 2 ^ 53)%Z -> trim_each (List.length xs) (post p) = 0%Z -> sqdev cs = 0 -> xs <> [] ->
    primary_metric_stats argsort d t = Ok (NaN, NaN, List.length xs).
Proof.
  intros t xs cs CR ND H1 H2 EN LB TE SC NE.
  assert (LC : List.length cs = List.length xs) by exact (holds_data _ _ _ _ _ H2 H1).
  assert (L0 : (0 < List.length xs)%nat) by (destruct xs; [congruence|simpl; lia]).
  assert (U : usable (List.length xs) (post p)) by (apply (usable_design_post p d); auto; lia).
  unfold primary_metric_stats. rewrite par_design, CR, (metric_values_holds t _ _ _ ND H1), (metric_values_holds t _ _ _ ND H2). cbn [bind].
  unfold data at 1 2. rewrite (c48_constant_covariate_gives_nan argsort xs cs (post p) _ HS U TE eq_refl LC (or_intror SC)). cbn [bind].
  destruct (design_array (List.length xs) [repeat NaN (List.length xs)]) as (tr & Ht & ER & EK & HK & EL & EP); auto; [discriminate| |].
  { intros r [<-|[]]. apply repeat_length. }
  rewrite Ht. cbn [bind fst snd]. assert (K0 : t_k tr = 0%nat) by lia. rewrite K0, Nat.mul_0_r, Nat.sub_0_r in *.
  rewrite EL, EP, Z.eqb_refl. cbn [negb raise_if bind].
  assert (VT : exists j, values_trimmed argsort tr = [repeat NaN (S j)]).
  { exists (List.length xs - 1)%nat. unfold values_trimmed, values_trimmed_of. rewrite ER. cbn [map]. f_equal. rewrite <- ER. fold (t_kept argsort tr).
    assert (SZ : sample_size (Trimmed_Model.t_rows tr) = List.length xs) by (rewrite ER; unfold sample_size; cbn [hd]; apply repeat_length).
    rewrite take_repeat.
    - f_equal. unfold t_kept. rewrite kept_length; auto; rewrite SZ; lia.
    - intros i Hi. apply (kept_lt argsort HS) in Hi. now rewrite SZ in Hi. }
  destruct VT as [j VT]. do 3 f_equal.
  - unfold t_mean, vec. rewrite VT. reflexivity.
  - unfold t_var, vec. rewrite ER. cbn [List.length seq map nth]. unfold t_cov. rewrite VT. cbn [map nth].
    unfold cov_of. cbn [repeat map combine ndot]. assert (W : wmean_of argsort tr (NaN :: repeat NaN j) = NaN) by reflexivity. rewrite W. reflexivity.
Qed.
End Stats.

(** *** Cases *)
(** sixty items *)
Definition panel_params (cross : bool) : params :=
  mkParams 60 2 "clicks" 1 cross f0 f0 f0 (if cross then Some 0%Z else None) (flit 5 100) (flit 8 10) None.
Definition panel_design (cross : bool) : design := mkDesignRec (panel_params cross) 60 60.
Lemma panel_design_ok cross : mk_design (panel_params cross) = Ok (panel_design cross).
Proof. destruct cross; apply mk_design_check; vm_compute; reflexivity. Qed.
(** the same designs, trimming 5 % on each side: three items *)
Definition cut_params (cross : bool) : params :=
  mkParams 60 2 "clicks" 1 cross f0 f0 (flit 5 100) (if cross then Some 0%Z else None) (flit 5 100) (flit 8 10) None.
Definition cut_design (cross : bool) : design := mkDesignRec (cut_params cross) 60 54.
Lemma cut_design_ok cross : mk_design (cut_params cross) = Ok (cut_design cross).
Proof. destruct cross; apply mk_design_check; vm_compute; reflexivity. Qed.

Definition two_columns (a b : string) (f g : nat -> R) : table ikey :=
  mkT [("clicks", a); ("clicks", b)] (map (fun n => (IInt (Z.of_nat n), [Fin (f n); Fin (g n)])) (seq 0 60)).
Lemma two_columns_hold a b f g :
  holds (two_columns a b f g) ("clicks", a) (data (map f (seq 0 60))) /\ holds (two_columns a b f g) ("clicks", b) (data (map g (seq 0 60))).
Proof.
  split; [exists 0%nat|exists 1%nat]; (split; [reflexivity|]); unfold two_columns, data; cbn [t_rows]; rewrite map_map;
    generalize (seq 0 60); intros l; induction l; cbn [map]; constructor; auto.
Qed.

Lemma two_columns_nodup a b f g : a <> b -> NoDup (t_cols (two_columns a b f g)).
Proof. intros N. repeat constructor; simpl; intuition congruence. Qed.

Lemma const_repeat (c : R) n m : map (fun _ => c) (seq m n) = repeat c n.
Proof. revert m. induction n; intros m; simpl; congruence. Qed.
Lemma minus_repeat a b n : minus (repeat a n) (repeat b n) = repeat (a - b) n.
Proof. unfold minus. induction n; simpl; congruence. Qed.
Lemma repeat_sorted (c : R) n : StronglySorted Rle (repeat c n).
Proof. induction n; simpl; constructor; auto. apply Forall_forall. intros x Hx. apply repeat_spec in Hx. subst. lra. Qed.
Lemma avg_same (c : R) l : l <> [] -> (forall x, In x l -> x = c) -> avg l = c.
Proof.
  intros N H. assert (E : l = repeat c (List.length l)) by (clear N; induction l as [|x l IH]; simpl; [auto|f_equal; [apply H; now left|apply IH; intros; apply H; now right]]).
  rewrite E. unfold avg. rewrite total_repeat, repeat_length. field. apply not_0_INR. destruct l; [congruence|simpl; lia].
Qed.
Lemma rtake_const (c : R) n idx : (forall i, In i idx -> (i < n)%nat) -> forall x, In x (rtake idx (repeat c n)) -> x = c.
Proof. intros H x Hx. apply in_map_iff in Hx as (i & <- & Hi). apply (repeat_spec n c). apply nth_In. rewrite repeat_length. auto. Qed.
Lemma numbers_vary : sqdev (map INR (seq 0 60)) <> 0.
Proof.
  intros H. apply sqdev_zero_repeat in H; [|discriminate]. assert (A := f_equal (fun l => nth 0 l 7) H). assert (B := f_equal (fun l => nth 1 l 7) H).
  cbn [map seq List.length nth repeat] in A, B. simpl in A, B. lra.
Qed.
Lemma panel_trims_none cross : trim_each 60 (post (panel_params cross)) = 0%Z.
Proof. unfold trim_each. cbn [post panel_params]. destruct f0_val as [_ ->]. rewrite Rmult_0_l, rnd_0. apply (Zfloor_IZR 0). Qed.
Lemma cut_trims_three cross : trim_each 60 (post (cut_params cross)) = 3%Z.
Proof.
  destruct (design_array argsort_ref argsort_ref_sorts (cut_params cross) (cut_design cross) (cut_design_ok cross) 60 [repeat NaN 60]) as (t & _ & _ & EK & _ & _ & EP);
    try discriminate; auto; [intros r [<-|[]]; apply repeat_length|lia|].
  rewrite <- EK. cbn [n_post cut_design] in EP. lia.
Qed.

(** the metric is 3 in the first period and 1 in the second for every item *)
Example c73_example_crossover_statistics :
  primary_metric_stats argsort_ref (panel_design true) (two_columns "test_1" "test_2" (fun _ => 3) (fun _ => 1)) = Ok (Fin 2, Fin 0, 60%nat) /\
  primary_metric_stats argsort_ref (cut_design true) (two_columns "test_1" "test_2" (fun _ => 3) (fun _ => 1)) = Ok (Fin 2, Fin 1, 54%nat).
Proof.
  assert (G : forall p d k, mk_design p = Ok d -> crossover p = true -> metric p = "clicks" -> n_pre d = 60%Z -> trim_each 60 (post p) = Z.of_nat k -> (2 * k < 60)%nat ->
    primary_metric_stats argsort_ref d (two_columns "test_1" "test_2" (fun _ => 3) (fun _ => 1)) =
      Ok (Fin 2, Fin (mean_gap_term p k (repeat 2 60)), (60 - 2 * k)%nat)).
  { intros p d k HD CR EM EN ET K2. destruct (two_columns_hold "test_1" "test_2" (fun _ => 3) (fun _ => 1)) as [H1 H2]. rewrite !const_repeat in H1, H2. rewrite <- EM in H1, H2.
    assert (M : minus (repeat 3 60) (repeat 1 60) = repeat 2 60) by (rewrite minus_repeat; f_equal; lra).
    destruct (c73_crossover_statistics argsort_ref argsort_ref_sorts p d HD (two_columns "test_1" "test_2" (fun _ => 3) (fun _ => 1)) (repeat 3 60) (repeat 1 60) (repeat 2 60) CR) as (k' & kept & A & B & C & D & F & P & R); auto.
    - now apply two_columns_nodup.
    - lia.
    - discriminate.
    - rewrite M. split; [apply Permutation_refl|apply repeat_sorted].
    - rewrite repeat_length in *. assert (k' = k) by lia. subst k'. rewrite R, M. clear R M.
      assert (KN : kept <> []) by (intros ->; cbn [List.length] in F; lia).
      assert (RN : forall r, rtake kept r <> []) by (intros r E; apply KN; now apply map_eq_nil in E).
      rewrite (avg_same 3 _ (RN _) (rtake_const 3 60 kept D)), (avg_same 1 _ (RN _) (rtake_const 1 60 kept D)).
      assert (TD : tdev k (repeat 2 60) (repeat 2 60) = 0).
      { unfold tdev. rewrite nth_repeat_map. rewrite <- codev_self. apply codev_repeat. }
      rewrite TD. assert (EF : forall x y : R, x = y -> Fin x = Fin y) by congruence.
      f_equal. f_equal. f_equal; apply EF; [lra|]. unfold Rdiv at 1. ring. }
  split.
  - rewrite (G _ _ 0%nat (panel_design_ok true)); auto; [|apply panel_trims_none|lia]. unfold mean_gap_term. destruct (Rlt_dec _ _) as [H|H]; auto.
    exfalso. cbn [post panel_params] in H. destruct f0_val as [_ E]. rewrite E in H. lra.
  - rewrite (G _ _ 3%nat (cut_design_ok true)); auto; [|apply cut_trims_three|lia]. unfold mean_gap_term. destruct (Rlt_dec _ _) as [H|H].
    + assert (EF : forall x y : R, x = y -> Fin x = Fin y) by congruence. f_equal. f_equal. f_equal. apply EF.
      unfold tmean. rewrite (avg_same 2); [lra|discriminate|]. intros x Hx. unfold middle in Hx. apply (repeat_spec 60 2). 
      rewrite <- (firstn_skipn 3 (repeat 2 60)). apply in_or_app. right. rewrite <- (firstn_skipn (List.length (repeat 2 60) - 2 * 3) (skipn 3 (repeat 2 60))). apply in_or_app. now left.
    + exfalso. apply H. apply (post_positive _ _ (cut_design_ok true)). vm_compute. reflexivity.
Qed.

(** the numbers 0 to 59, predicted exactly by the pretest values *)
Example c73_example_regular_statistics :
  primary_metric_stats argsort_ref (panel_design false) (two_columns "test" "pretest" INR INR) = Ok (Fin (avg (map INR (seq 0 60))), Fin 0, 60%nat) /\
  primary_metric_stats argsort_ref (panel_design false) (two_columns "test" "pretest" INR (fun _ => 5)) = Ok (NaN, NaN, 60%nat) /\
  (exists v, primary_metric_stats argsort_ref (cut_design false) (two_columns "test" "pretest" INR INR) = Ok (Fin (tmean 3 (map INR (seq 0 60))), Fin v, 54%nat)) /\
  primary_metric_stats argsort_ref (cut_design false) (two_columns "test" "washout" INR INR) =
    Ok (Fin (tmean 3 (map INR (seq 0 60))), Fin (tdev 3 (map INR (seq 0 60)) (map INR (seq 0 60)) / (INR 54 - 1)), 54%nat).
Proof.
  assert (SS : sorted_as (map INR (seq 0 60)) (map INR (seq 0 60))).
  { split; [apply Permutation_refl|]. assert (W : forall n m, StronglySorted Rle (map INR (seq m n))); [|apply W]. induction n as [|n IH]; intros m; cbn [seq map]; constructor; auto.
    apply Forall_forall. intros x Hx. apply in_map_iff in Hx as (i & <- & Hi). apply in_seq in Hi. apply le_INR. lia. }
  assert (LL : List.length (map INR (seq 0 60)) = 60%nat) by reflexivity.
  split; [|split; [|split]].
  - destruct (two_columns_hold "test" "pretest" INR INR) as [H1 H2].
    rewrite (c73_regular_statistics_with_pretest argsort_ref argsort_ref_sorts _ _ (panel_design_ok false) _ _ _ eq_refl (two_columns_nodup "test" "pretest" INR INR ltac:(discriminate)) H1 H2); auto.
    + rewrite LL. assert (EF : forall x y : R, x = y -> Fin x = Fin y) by congruence. f_equal. f_equal. f_equal. apply EF.
      rewrite codev_self.
      assert (V := numbers_vary). field. split; auto. assert (X : IZR (Z.of_nat 60) - 1 <> 0) by (rewrite <- minus_IZR; apply not_0_IZR; lia). now rewrite <- INR_IZR_INZ in X.
    + cbn. lia.
    + rewrite LL. apply panel_trims_none.
    + apply numbers_vary.
  - destruct (two_columns_hold "test" "pretest" INR (fun _ => 5)) as [H1 H2].
    rewrite (c73_constant_pretest_gives_nan argsort_ref argsort_ref_sorts _ _ (panel_design_ok false) _ _ _ eq_refl (two_columns_nodup "test" "pretest" INR (fun _ => 5) ltac:(discriminate)) H1 H2); auto.
    + cbn. lia.
    + rewrite LL. apply panel_trims_none.
    + rewrite const_repeat. rewrite <- codev_self. apply codev_repeat.
    + discriminate.
  - destruct (two_columns_hold "test" "pretest" INR INR) as [H1 H2].
    destruct (c73_regular_statistics_with_pretest_and_trimming argsort_ref argsort_ref_sorts _ _ (cut_design_ok false) _ _ _ (map INR (seq 0 60)) eq_refl (two_columns_nodup "test" "pretest" INR INR ltac:(discriminate)) H1 H2)
      as (k & v & A & B & _ & R).
    + reflexivity.
    + cbn. lia.
    + rewrite LL, cut_trims_three. lia.
    + discriminate.
    + exact SS.
    + rewrite LL, cut_trims_three in A. assert (k = 3%nat) by lia. subst k. exists v. exact R.
  - destruct (two_columns_hold "test" "washout" INR INR) as [H1 _].
    destruct (c73_regular_statistics argsort_ref argsort_ref_sorts _ _ (cut_design_ok false) _ _ (map INR (seq 0 60)) eq_refl (two_columns_nodup "test" "washout" INR INR ltac:(discriminate)) H1)
      as (k & A & B & R).
    + cbn. intuition discriminate.
    + reflexivity.
    + cbn. lia.
    + discriminate.
    + exact SS.
    + rewrite LL, cut_trims_three in A. assert (k = 3%nat) by lia. subst k. exact R.
Qed.

Print Assumptions c73_crossover_statistics.
Print Assumptions c73_regular_statistics.
Print Assumptions c73_regular_statistics_with_pretest.
Print Assumptions c73_regular_statistics_with_pretest_and_trimming.
Print Assumptions c73_constant_pretest_gives_nan.
