(** C94: what trimming protects against.  [Trimmed_Spec] supplies the elementary vocabulary; the
    wrong values are given by their positions. *)
From Coq Require Import ZArith Reals Lra Lia List Bool Permutation Sorting.Sorted.
From Flocq Require Import Core BinarySingleNaN.
Require Import Verif.Base Verif.Num Verif.NumOrd Verif.F64 Verif.ListLib
  Verif.Assign_Proofs Verif.Trimmed_Model Verif.Trimmed_Spec Verif.Moments Verif.Trimmed_Proofs Verif.Trimmed_Real
  Verif.Trimmed_Props Verif.Robust_Proofs.
Import ListNotations.
Open Scope R_scope.

(** all values of [ys] outside the positions [bad] are numbers in [lo, hi] *)
Definition good_outside (bad : list nat) (lo hi : R) (ys : list num) : Prop :=
  forall i, (i < length ys)%nat -> ~ In i bad -> exists r, nth i ys NaN = Fin r /\ lo <= r <= hi.

(** the kept values of a first row with at most k bad positions *)
Lemma kept_good argsort ys rows q n t bad lo hi :
  sorts argsort -> array n (ys :: rows) -> mk_trimmed argsort (ys :: rows) q = Ok t ->
  (length bad <= t_k t)%nat -> good_outside bad lo hi ys ->
  exists vs rest, values_trimmed argsort t = map Fin vs :: rest /\ length vs = (n - 2 * t_k t)%nat /\ (2 * t_k t < n)%nat /\
    forall x, In x vs -> lo <= x <= hi.
Proof.
  intros HS HA Ht HB HG.
  destruct (c43_trims_floor_of_quantile_times_n argsort _ q n t HS HA Ht) as (_ & H2 & _).
  destruct (c44_keeps_the_middle_order_statistics argsort _ q n t HS HA Ht) as (idx & _ & _ & V & P).
  assert (AS := argsort_ascending argsort HS ys). set (s := take (argsort ys) ys) in AS.
  specialize (P s AS). cbn [map hd] in V, P. destruct AS as [Ps Ss].
  assert (Ln : length ys = n) by (destruct HA as (_ & HR & _); apply HR; now left).
  assert (Ls : length s = n) by (rewrite <- (Permutation_length Ps); auto).
  set (p1 := fun a => nan_lastb (Fin lo) a). set (p2 := fun a => nan_lastb a (Fin hi)).
  assert (GOOD : forall i, (i < length ys)%nat -> ~ In i bad -> p1 (nth i ys NaN) = true /\ p2 (nth i ys NaN) = true).
  { intros i Hi Hn. destruct (HG i Hi Hn) as (r & -> & B). unfold p1, p2. split; apply nan_lastb_spec; left; apply nleb_fin; lra. }
  assert (M : forall x, In x (middle (t_k t) s) -> exists r, x = Fin r /\ lo <= r <= hi).
  { intros x Hx.
    assert (X1 : p1 x = true).
    { apply (middle_up nan_last p1 (t_k t) ys s x); auto; try lia.
      - intros a b R1. unfold p1. rewrite !nan_lastb_spec. intros R2. eapply nan_last_trans; eauto.
      - etransitivity; [|exact HB]. apply (cnt_bad _ NaN). intros i Hi Hn. apply negb_false_iff. now apply GOOD. }
    assert (X2 : p2 x = true).
    { apply (middle_down nan_last p2 (t_k t) ys s x); auto; try lia.
      - intros a b R1. unfold p2. rewrite !nan_lastb_spec. intros R2. eapply nan_last_trans; eauto.
      - etransitivity; [|exact HB]. apply (cnt_bad _ NaN). intros i Hi Hn. apply negb_false_iff. now apply GOOD. }
    apply nan_lastb_spec in X1 as [X1|X1]; apply nan_lastb_spec in X2 as [X2|X2]; subst; try discriminate.
    destruct x as [r| | |]; try discriminate. exists r. split; auto. apply nleb_fin in X1, X2. lra. }
  set (row := map (fun i => nth i ys NaN) idx) in *.
  assert (MR : forall x, In x row -> exists r, x = Fin r /\ lo <= r <= hi).
  { intros x Hx. apply M. eapply Permutation_in; eauto. }
  exists (map (fun x => match x with Fin r => r | _ => 0 end) row). eexists. split; [|split; [|split; auto]].
  - rewrite V. f_equal. rewrite map_map. rewrite <- (map_id row) at 1. apply map_ext_in. intros x Hx.
    destruct (MR x Hx) as (r & -> & _). reflexivity.
  - rewrite map_length, (Permutation_length P), middle_length; lia.
  - intros x Hx. apply in_map_iff in Hx as (y & <- & Hy). destruct (MR y Hy) as (r & -> & B). exact B.
Qed.

(** up to k wrong values, even missing or infinite ones, where k samples are trimmed on each
    side: mean, winsorized mean and variance of the first row are numbers within the bounds that
    the other values give *)
Theorem c94_resists_as_many_outliers_as_are_trimmed :
  forall argsort ys rows q n t bad lo hi ddof,
    sorts argsort -> array n (ys :: rows) -> mk_trimmed argsort (ys :: rows) q = Ok t ->
    (length bad <= t_k t)%nat -> good_outside bad lo hi ys ->
    (ddof < Z.of_nat (n - 2 * t_k t))%Z ->
    exists m w v,
      hd NaN (t_mean argsort t) = Fin m /\ lo <= m <= hi /\
      hd NaN (winsorized_mean argsort t) = Fin w /\ lo <= w <= hi /\
      hd NaN (t_var argsort t ddof) = Fin v /\ hd NaN (t_std argsort t ddof) = Fin (sqrt v) /\
      0 <= v <= INR n / IZR (Z.of_nat (n - 2 * t_k t) - ddof) * ((hi - lo) / 2) ^ 2.
Proof.
  intros argsort ys rows q n t bad lo hi ddof HS HA Ht HB HG HD.
  destruct (kept_good argsort ys rows q n t bad lo hi HS HA Ht HB HG) as (vs & rest & V & L & H2 & BD).
  assert (HN : vs <> []) by (intros ->; simpl in L; lia).
  assert (ER := proj1 (mk_trimmed_inv _ _ _ _ Ht)).
  assert (HZ : t_size t = n).
  { unfold t_size, sample_size. rewrite ER. cbn [hd]. destruct HA as (_ & HR & _). apply HR; now left. }
  assert (HR : (0 < length (t_rows t))%nat) by (rewrite ER; simpl; lia).
  destruct (kept_moments argsort t vs n (t_k t) rest V HN eq_refl HZ ltac:(lia) HR ddof ltac:(lia)) as (mn & mx & [I1 _] & [I2 _] & W & VV).
  cbv zeta in W, VV. set (Ws := (vs ++ repeat mn (t_k t) ++ repeat mx (t_k t))%list) in *.
  assert (BW : forall x, In x Ws -> lo <= x <= hi).
  { intros x Hx. unfold Ws in Hx. apply in_app_or in Hx as [Hx|Hx]; auto.
    apply in_app_or in Hx as [Hx|Hx]; apply repeat_spec in Hx; subst; auto. }
  assert (NW : Ws <> []) by (unfold Ws; destruct vs; [congruence|discriminate]).
  assert (LW : length Ws = n) by (unfold Ws; rewrite !app_length, !repeat_length; lia).
  assert (SB := sqdev_range Ws lo hi NW BW). rewrite LW in SB.
  set (d := IZR (Z.of_nat (n - 2 * t_k t) - ddof)).
  assert (PD : 0 < / d) by (apply Rinv_0_lt_compat; unfold d; apply IZR_lt; lia).
  assert (BV : 0 <= sqdev Ws / d <= INR n / d * ((hi - lo) / 2) ^ 2).
  { unfold Rdiv. split; [nra|]. replace (INR n * / d * ((hi - lo) * / 2) ^ 2) with (INR n * ((hi - lo) / 2) ^ 2 * / d) by (unfold Rdiv; ring).
    apply Rmult_le_compat_r; lra. }
  exists (avg vs), (avg Ws), (sqdev Ws / d).
  split; [now apply (kept_mean argsort t vs n (t_k t) rest); try lia|]. split; [now apply avg_bounds|].
  split; [exact W|]. split; [now apply avg_bounds|].
  split. { rewrite VV, L. reflexivity. }
  split; [|exact BV].
  unfold t_std. rewrite L in VV. destruct (t_var argsort t ddof) as [|a l]; [discriminate|]. cbn [map hd] in *.
  rewrite VV. apply nsqrt_fin. apply BV.
Qed.

(** one wrong value more can move the mean beyond every bound *)
Theorem c94_one_outlier_more_is_not_resisted :
  forall argsort xs q n t B, sorts argsort -> array n (fins [xs]) -> mk_trimmed argsort (fins [xs]) q = Ok t ->
    exists ys u m, length ys = n /\
      (forall i, (t_k t < i)%nat -> (i < n)%nat -> nth i ys 0 = nth i xs 0) /\
      mk_trimmed argsort (fins [ys]) q = Ok u /\ t_mean argsort u = [Fin m] /\ B < m.
Proof.
  intros argsort xs q n t B HS HA Ht.
  destruct (c43_trims_floor_of_quantile_times_n argsort _ q n t HS HA Ht) as (EK & H2 & _).
  set (k := t_k t) in *.
  assert (LX : length xs = n).
  { destruct HA as (_ & HR & _). rewrite <- (HR (map Fin xs)); [now rewrite map_length|now left]. }
  assert (LB : exists lo, lo <= 0 /\ forall x, In x xs -> lo <= x).
  { clear. induction xs as [|a l (lo & H0 & H)]; [exists 0; split; [lra|intros x []]|].
    exists (Rmin lo a). split; [eapply Rle_trans; [apply Rmin_l|auto]|].
    intros x [<-|Hx]; [apply Rmin_r|]. eapply Rle_trans; [apply Rmin_l|auto]. }
  destruct LB as (lo & Hlo & LB).
  set (M := Rmax 0 (INR n * (Rmax 0 B + 1) - INR n * lo)).
  set (ys := (repeat M (S k) ++ skipn (S k) xs)%list).
  assert (LY : length ys = n) by (unfold ys; rewrite app_length, repeat_length, skipn_length; lia).
  assert (HA' : array n (fins [ys])).
  { destruct HA as (_ & _ & H0 & H1). repeat split; auto; [discriminate|].
    intros r [<-|[]]. now rewrite map_length. }
  assert (QQ : exists t', mk_trimmed argsort (fins [xs]) q = Ok t') by eauto.
  apply (c43_accepts_exactly_quantiles_below_half argsort (fins [xs]) q n HS HA) in QQ.
  assert (QQ' := QQ). apply (c43_accepts_exactly_quantiles_below_half argsort (fins [ys]) q n HS HA') in QQ' as [u Hu].
  destruct (c43_trims_floor_of_quantile_times_n argsort _ q n u HS HA' Hu) as (EK' & _).
  assert (KU : t_k u = k) by lia.
  assert (FT := trimmed_finite _ _ _ _ _ HS HA' Hu). rewrite KU in FT.
  destruct (sorted_real ys) as (s & Ps & Ss).
  assert (Ls : length s = n) by (rewrite <- (Permutation_length Ps); auto).
  assert (HM : 0 <= M) by apply Rmax_l.
  exists ys, u, (avg (middle k s)). split; [auto|]. split.
  { intros i Hi Hn. unfold ys. rewrite app_nth2; rewrite repeat_length; [|lia].
    clear -Hi. revert i Hi. generalize k. induction xs as [|a l IH]; intros j i Hi; simpl.
    { destruct (i - S j)%nat, i; reflexivity. }
    destruct i as [|i]; [lia|]. destruct j as [|j]; simpl; [now rewrite Nat.sub_0_r|]. apply IH. lia. }
  split; [auto|]. split.
  { rewrite (mean_real argsort HS u [ys] n k FT). cbn [map]. do 2 f_equal. apply avg_perm.
    exact (kept_middle argsort HS u [ys] n k FT s Ps Ss). }
  (* the largest kept value is at least M *)
  assert (TOP : exists x, In x (middle k s) /\ M <= x).
  { assert (S2 := split_at s (n - 1 - k) 0 ltac:(lia)). set (e := nth (n - 1 - k) s 0) in *.
    exists e. split.
    { destruct (middle_ends s k Ss) as [_ [G _]]; [lia|]. unfold e. now rewrite Ls in G. }
    apply Rnot_lt_le. intros C.
    assert (CN : (S k <= cnt (fun x => Rle_bool M x) ys)%nat).
    { unfold ys. rewrite cnt_app, cnt_all; [rewrite repeat_length; lia|].
      intros x Hx. apply repeat_spec in Hx. subst. apply Rle_bool_true. lra. }
    rewrite (cnt_perm _ _ _ Ps) in CN.
    assert (LF : length (firstn (n - 1 - k) s) = (n - 1 - k)%nat) by (rewrite firstn_length; lia).
    assert (LK : length (skipn (S (n - 1 - k)) s) = k) by (rewrite skipn_length; lia).
    rewrite S2 in CN, Ss. apply sorted_split in Ss as [S3 _]. rewrite cnt_app in CN.
    unfold cnt at 1 in CN. rewrite filter_none in CN.
    2:{ intros x Hx. apply Rle_bool_false. apply S3 in Hx. lra. }
    unfold cnt in CN. cbn [filter] in CN. rewrite Rle_bool_false in CN by lra. cbn [length] in CN.
    rewrite <- LK in CN at 1. revert CN. generalize (skipn (S (n - 1 - k)) s). clear. intros l H.
    assert (G : (length (filter (fun x => Rle_bool M x) l) <= length l)%nat)
      by (clear; induction l as [|a l IH]; simpl; [lia|]; destruct (Rle_bool M a); simpl; lia). lia. }
  assert (LOW : forall x, In x (middle k s) -> lo <= x).
  { intros x Hx. apply middle_incl in Hx. apply (Permutation_in _ (Permutation_sym Ps)) in Hx.
    unfold ys in Hx. apply in_app_or in Hx as [Hx|Hx]; [apply repeat_spec in Hx; subst; lra|].
    apply LB. rewrite <- (firstn_skipn (S k) xs). apply in_or_app. now right. }
  assert (LM : length (middle k s) = (n - 2 * k)%nat) by (rewrite middle_length; lia).
  destruct TOP as (x & IX & HX). apply in_split in IX as (a & b & E). rewrite E in LM, LOW |- *.
  rewrite app_length in LM. cbn [length] in LM. unfold avg. rewrite app_length. cbn [length].
  rewrite total_app'. change (total (x :: b)) with (x + total b).
  assert (TA : INR (length a) * lo <= total a).
  { assert (LA : forall y, In y a -> lo <= y) by (intros; apply LOW; apply in_or_app; auto).
    clear -LA. induction a as [|y a IH]; [simpl; lra|]. cbn [length]. rewrite S_INR. change (total (y :: a)) with (y + total a).
    assert (lo <= y) by (apply LA; now left). assert (INR (length a) * lo <= total a) by (apply IH; intros; apply LA; now right). lra. }
  assert (TB : INR (length b) * lo <= total b).
  { assert (LA : forall y, In y b -> lo <= y) by (intros; apply LOW; apply in_or_app; right; now right).
    clear -LA. induction b as [|y a IH]; [simpl; lra|]. cbn [length]. rewrite S_INR. change (total (y :: a)) with (y + total a).
    assert (lo <= y) by (apply LA; now left). assert (INR (length a) * lo <= total a) by (apply IH; intros; apply LA; now right). lra. }
  assert (NN : INR (length a + S (length b)) <= INR n) by (apply le_INR; lia).
  assert (N1 : 1 <= INR (length a + S (length b))) by (change 1 with (INR 1); apply le_INR; lia).
  assert (SUMN : INR (length a) + INR (length b) <= INR n) by (rewrite <- plus_INR; apply le_INR; lia).
  assert (M2 : INR n * (Rmax 0 B + 1) - INR n * lo <= M) by apply Rmax_r.
  assert (B0 : 0 <= Rmax 0 B /\ B <= Rmax 0 B) by (split; [apply Rmax_l|apply Rmax_r]).
  set (d := INR (length a + S (length b))) in *. set (B' := Rmax 0 B) in *.
  apply Rlt_le_trans with (B' + 1); [lra|].
  apply Rmult_le_reg_r with d; [lra|]. unfold Rdiv. rewrite Rmult_assoc, Rinv_l, Rmult_1_r by lra.
  assert (INR n * lo <= (INR (length a) + INR (length b)) * lo) by nra.
  assert ((B' + 1) * d <= INR n * (B' + 1)) by nra. lra.
Qed.

(** larger values never give a smaller mean *)
Theorem c94_monotone :
  forall as1 as2 xs ys q n t u, sorts as1 -> sorts as2 -> array n (fins [xs]) ->
    Forall2 Rle xs ys ->
    mk_trimmed as1 (fins [xs]) q = Ok t -> mk_trimmed as2 (fins [ys]) q = Ok u ->
    exists m m' w w',
      t_mean as1 t = [Fin m] /\ t_mean as2 u = [Fin m'] /\ m <= m' /\
      winsorized_mean as1 t = [Fin w] /\ winsorized_mean as2 u = [Fin w'] /\ w <= w'.
Proof.
  intros as1 as2 xs ys q n t u S1 S2 HA F Ht Hu.
  assert (LX : length xs = n).
  { destruct HA as (_ & HR & _). rewrite <- (HR (map Fin xs)); [now rewrite map_length|now left]. }
  assert (LY : length ys = n) by (rewrite <- (Forall2_len _ _ _ F); auto).
  assert (HB : array n (fins [ys])).
  { destruct HA as (_ & _ & H0 & H1). repeat split; auto; [discriminate|].
    intros r [<-|[]]. now rewrite map_length. }
  assert (FX := trimmed_finite _ _ _ _ _ S1 HA Ht). assert (FY := trimmed_finite _ _ _ _ _ S2 HB Hu).
  destruct (c43_trims_floor_of_quantile_times_n as1 _ q n t S1 HA Ht) as (EK & H2 & _).
  destruct (c43_trims_floor_of_quantile_times_n as2 _ q n u S2 HB Hu) as (EK' & _).
  assert (KU : t_k u = t_k t) by lia. rewrite KU in FY. set (k := t_k t) in *.
  destruct (sorted_real xs) as (s & Ps & Ss). destruct (sorted_real ys) as (r & Pr & Sr).
  assert (Ls := Permutation_length Ps). assert (Lr := Permutation_length Pr).
  destruct (wins_ok as1 S1 t xs n k FX s Ps Ss) as [X1 X2].
  destruct (wins_ok as2 S2 u ys n k FY r Pr Sr) as [Y1 Y2].
  assert (PW : forall i, (i < length s)%nat -> nth i s 0 <= nth i r 0) by (intros; eapply sorted_pointwise; eauto).
  assert (FS : Forall2 Rle s r) by (apply Forall2_nth_le; auto; lia).
  assert (FM : Forall2 Rle (middle k s) (middle k r)) by (now apply Forall2_middle).
  exists (avg (middle k s)), (avg (middle k r)), (avg (wins k s)), (avg (wins k r)).
  rewrite (mean_real as1 S1 t [xs] n k FX), (mean_real as2 S2 u [ys] n k FY).
  rewrite (winsorized_mean_real as1 S1 t [xs] n k FX), (winsorized_mean_real as2 S2 u [ys] n k FY). cbn [map].
  rewrite (avg_perm _ _ X1), (avg_perm _ _ Y1), (avg_perm _ _ X2), (avg_perm _ _ Y2).
  split; [reflexivity|]. split; [reflexivity|]. split; [now apply avg_mono|].
  split; [reflexivity|]. split; [reflexivity|]. apply avg_mono.
  unfold wins.
  assert (RP : forall a b j, a <= b -> Forall2 Rle (repeat a j) (repeat b j)) by (clear; intros a b j H; induction j; simpl; constructor; auto).
  apply Forall2_app; auto. rewrite <- Lr, <- Ls, LX, LY. apply Forall2_app; apply RP; apply PW; lia.
Qed.

(** non-trivial cases: seven samples, two trimmed on each side; two of them are a missing and an
    infinite value, the mean stays a number between 4 and 9 *)
Example c94_example_outliers :
  exists t m, mk_trimmed argsort_ref [[Fin 4; NaN; Fin 5; Fin 7; NInf; Fin 6; Fin 9]] (flit 2 7) = Ok t /\ t_k t = 2%nat /\
    hd NaN (t_mean argsort_ref t) = Fin m /\ 4 <= m <= 9.
Proof.
  set (ys := [Fin 4; NaN; Fin 5; Fin 7; NInf; Fin 6; Fin 9]).
  assert (A : array 7 [ys]).
  { split; [discriminate|]. split; [intros r [<-|[]]; reflexivity|]. split; [lia|]. vm_compute. discriminate. }
  assert (E : floor_mul (flit 2 7) 7 = Ok 2%Z) by (vm_compute; reflexivity).
  assert (K : (fltb (flit 2 7) f0 || fgeb (flit 2 7) fhalf)%bool = false) by (vm_compute; reflexivity).
  assert (Q : is_finite (flit 2 7) = true /\ 0 <= B2R (flit 2 7) < 1 / 2) by (apply (quantile_checks _ 2 7); auto; vm_compute; discriminate).
  apply (c43_accepts_exactly_quantiles_below_half argsort_ref [ys] _ 7 argsort_ref_sorts A) in Q as [t Ht].
  assert (TK : t_k t = 2%nat).
  { assert (Ht' := Ht). apply mk_trimmed_inv in Ht' as (_ & _ & _ & k & E' & ->).
    change (Z.of_nat (sample_size [ys])) with 7%Z in E'. rewrite E in E'. now injection E' as <-. }
  destruct (c94_resists_as_many_outliers_as_are_trimmed argsort_ref ys [] (flit 2 7) 7 t [1; 4]%nat 4 9 0 argsort_ref_sorts A Ht)
    as (m & w & v & M & BM & _).
  - rewrite TK. simpl. lia.
  - intros i Hi Hn. do 7 (destruct i as [|i]; [first [solve [exfalso; apply Hn; simpl; tauto] | cbn [nth ys]; eexists; split; [reflexivity|lra]]|]).
    simpl in Hi. lia.
  - rewrite TK. lia.
  - exists t, m. auto.
Qed.

(** the same values without trimming: the mean is NaN *)
Example c94_example_without_trimming :
  exists t, mk_trimmed argsort_ref [[Fin 4; NaN; Fin 5; Fin 7; NInf; Fin 6; Fin 9]] f0 = Ok t /\
    t_mean argsort_ref t = [NaN].
Proof.
  set (ys := [Fin 4; NaN; Fin 5; Fin 7; NInf; Fin 6; Fin 9]).
  assert (A : array 7 [ys]).
  { split; [discriminate|]. split; [intros r [<-|[]]; reflexivity|]. split; [lia|]. vm_compute. discriminate. }
  assert (E : floor_mul f0 7 = Ok 0%Z) by (vm_compute; reflexivity).
  assert (K : (fltb f0 f0 || fgeb f0 fhalf)%bool = false) by (vm_compute; reflexivity).
  assert (Q : is_finite f0 = true /\ 0 <= B2R f0 < 1 / 2) by (apply (quantile_checks _ 0 7); auto; vm_compute; discriminate).
  apply (c43_accepts_exactly_quantiles_below_half argsort_ref [ys] _ 7 argsort_ref_sorts A) in Q as [t Ht].
  exists t. split; auto.
  apply mk_trimmed_inv in Ht as (ER & _ & _ & k & E' & EK).
  change (Z.of_nat (sample_size [ys])) with 7%Z in E'. rewrite E in E'. injection E' as <-.
  unfold t_mean, values_trimmed, values_trimmed_of, kept_index. rewrite ER, EK. cbn. reflexivity.
Qed.

(** two samples of seven, the second one nowhere smaller: two trimmed on each side of both *)
Example c94_example_monotone :
  let xs := [20; 4; 5; 7; 1; 12; 9] in
  let ys := [20; 6; 5; 70; 1; 12; 11] in
  Forall2 Rle xs ys /\ array 7 (fins [xs]) /\
  exists t u, mk_trimmed argsort_ref (fins [xs]) (flit 2 7) = Ok t /\ mk_trimmed argsort_ref (fins [ys]) (flit 2 7) = Ok u /\ t_k t = 2%nat.
Proof.
  intros xs ys.
  destruct (seven_ok [xs]) as (A & t & Ht & K); [discriminate|intros r [<-|[]]; reflexivity|].
  destruct (seven_ok [ys]) as (_ & u & Hu & _); [discriminate|intros r [<-|[]]; reflexivity|].
  split; [unfold xs, ys; repeat constructor; lra|]. split; [exact A|]. exists t, u. auto.
Qed.

Print Assumptions c94_resists_as_many_outliers_as_are_trimmed.
Print Assumptions c94_one_outlier_more_is_not_resisted.
Print Assumptions c94_monotone.
