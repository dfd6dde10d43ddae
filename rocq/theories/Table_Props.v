(** C86: the formatted table of results. *)
From Coq Require Import ZArith Reals Lra Lia Psatz List String Ascii Bool.
From Flocq Require Import Core BinarySingleNaN Relative Ulp.
Require Import Verif.Base Verif.F64 Verif.Design_Model Verif.Display_Model Verif.Display_Spec Verif.Display_Proofs.
Require Import Verif.Table_Model Verif.Table_Spec Verif.Table_Proofs.
Import ListNotations.
Open Scope string_scope.
Open Scope R_scope.

(** *** Absolute effects *)
(** the text is the number to n significant digits (at least one), with its sign; it is 0 only for 0 *)
Theorem c86_absolute_effect_text : forall n (x : f64) (p := Z.max 1 (Z.of_nat n)), is_finite x = true ->
  exists v, read_signed (general n x) = Some v /\ v = to_figures p (B2R x)
    /\ Rabs (v - B2R x) <= / 2 * bpow radix10 (1 - p) * Rabs (B2R x) /\ (v = 0 <-> B2R x = 0)
    /\ String.get 0 (general n x) = Some (if Bsign x then "-"%char else "+"%char).
Proof.
  intros n x p F. assert (P : (0 < p)%Z) by (unfold p; lia). assert (RE : Rabs (to_figures p (B2R x) - B2R x) <= / 2 * bpow radix10 (1 - p) * Rabs (B2R x)).
  { replace (1 - p)%Z with (- p + 1)%Z by lia. apply relative_error_N_FLX. exact P. }
  exists (to_figures p (B2R x)). split; [now apply general_reads|]. split; [reflexivity|]. split; [exact RE|]. split.
  - split; [intros E; rewrite E in RE|intros ->; apply to_figures_0].
    rewrite Rminus_0_l, Rabs_Ropp in RE. destruct (Req_dec (B2R x) 0) as [Q|Q]; auto. exfalso. apply Rabs_pos_lt in Q.
    assert (bpow radix10 (1 - p) <= bpow radix10 0) by (apply bpow_le; lia). cbn [bpow] in H. assert (BP := bpow_gt_0 radix10 (1 - p)). nra.
  - unfold general, plus_or_minus. destruct x as [s|s| |s m e H]; try discriminate F; cbn [negative Bsign]; destruct s; reflexivity.
Qed.
(** lower bound, estimate and upper bound are shown in their order *)
Theorem c86_absolute_interval_text : forall n (lb x ub : f64), is_finite lb = true -> is_finite x = true -> is_finite ub = true -> B2R lb <= B2R x <= B2R ub ->
  exists s t a v b, format_absolute_ci n lb ub = s ++ " to " ++ t /\ read_signed s = Some a /\ read_signed (general n x) = Some v /\ read_signed t = Some b
    /\ a <= v <= b.
Proof.
  intros n lb x ub Fl Fx Fu [H1 H2]. exists (general n lb), (general n ub), (to_figures (figures n) (B2R lb)), (to_figures (figures n) (B2R x)), (to_figures (figures n) (B2R ub)).
  split; [reflexivity|]. split; [now apply general_reads|]. split; [now apply general_reads|]. split; [now apply general_reads|].
  assert (P : Prec_gt_0 (figures n)) by (unfold Prec_gt_0, figures; lia).
  split; apply round_le; auto with typeclass_instances.
Qed.
(** with up to three figures no thousands separator is ever written *)
Theorem c86_no_separators : forall n x, (n <= 3)%nat -> has "," (general n x) = false.
Proof.
  intros n x N. unfold general. rewrite has_app. assert (PM : has "," (plus_or_minus x) = false) by (unfold plus_or_minus; now destruct (negative x)).
  rewrite PM. clear PM. cbn [orb]. destruct x as [s|s| |s m e H]; try reflexivity. destruct (bounded_exponent s m e H) as [E _].
  cbv zeta. fold (figures n). set (p := figures n). assert (P : (0 < p <= 3)%Z) by (unfold p, figures; lia).
  assert (SD := significant_digits_spec p m e (proj1 P) E). destruct (significant_digits p m e) as [r k]. destruct SD as [[B1 B2] _].
  assert (10 ^ p <= 10 ^ 3)%Z by (apply Z.pow_le_mono_r; lia). assert (0 < 10 ^ (p - 1))%Z by (apply pow10_pos; lia).
  change (10 ^ 3)%Z with 1000%Z in *.
  assert (G : forall d a, (0 <= a < 1000)%Z -> has "," (grouped_digits d a) = false).
  { intros d a A. unfold grouped_digits. destruct d as [|d]; [rewrite grouped_small by lia; apply dec_has; [reflexivity|lia]|].
    set (K := (10 ^ Z.of_nat (S d))%Z). assert (KP : (1 <= K)%Z) by (assert (0 < K)%Z by (apply pow10_pos; lia); lia).
    assert (Q : (0 <= a / K <= a)%Z) by (split; [apply Z.div_pos; lia|apply Z.div_le_upper_bound; nia]).
    assert (M := Z.mod_pos_bound a K ltac:(lia)). rewrite grouped_small by lia. rewrite has_app. cbn [append has]. rewrite dec_has by (auto; lia). rewrite padded_has by (auto; lia). reflexivity. }
  destruct (andb (-4 <=? k)%Z (k <? p)%Z).
  - assert (SS := strip_spec (Z.to_nat (p - 1 - k)) r ltac:(lia)). destruct (strip _ r) as [d a]. apply G. lia.
  - assert (SS := strip_spec (Z.to_nat (p - 1)) r ltac:(lia)). destruct (strip _ r) as [d a]. rewrite has_app, G by lia. unfold exponent_text. rewrite !has_app.
    rewrite padded_has by (auto; lia). now destruct (k <? 0)%Z.
Qed.

(** *** Projected effects *)
Lemma rnd_error x : Rabs (rnd x - x) <= bpow radix2 (-53) * Rabs x + bpow radix2 (-1075).
Proof.
  destruct (Rle_lt_dec (bpow radix2 (-1074 + 53 - 1)) (Rabs x)) as [H|H].
  - assert (Q : Rabs (rnd x - x) <= / 2 * bpow radix2 (- 53 + 1) * Rabs x) by (apply (relative_error_N_FLT radix2 (-1074) 53); [reflexivity|exact H]).
    replace (/ 2 * bpow radix2 (- 53 + 1)) with (bpow radix2 (-53)) in Q by (rewrite (bpow_plus radix2 (-53) 1); change (bpow radix2 1) with 2; field).
    assert (BP := bpow_gt_0 radix2 (-1075)). lra.
  - assert (Q : Rabs (rnd x - x) <= / 2 * ulp radix2 (FLT_exp (-1074) 53) x) by (apply error_le_half_ulp; typeclasses eauto).
    rewrite ulp_FLT_small in Q; [|reflexivity|eapply Rlt_le_trans; [exact H|apply bpow_le; lia]].
    replace (/ 2 * bpow radix2 (-1074)) with (bpow radix2 (-1075)) in Q by (change (-1074)%Z with (-1075 + 1)%Z; rewrite (bpow_plus radix2 (-1075) 1); change (bpow radix2 1) with 2; field).
    assert (0 <= bpow radix2 (-53) * Rabs x) by (apply Rmult_le_pos; [apply bpow_ge_0|apply Rabs_pos]). lra.
Qed.
Lemma to_decimals_error d x : Rabs (to_decimals d x - x) <= / 2 * / 10 ^ d.
Proof.
  assert (E : Rabs (to_decimals d x - x) <= / 2 * ulp radix10 (FIX_exp (- Z.of_nat d)) x) by (apply error_le_half_ulp; typeclasses eauto).
  rewrite ulp_FIX, bpow_opp, bpow10 in E by apply Nat2Z.is_nonneg. now rewrite IZR_pow10 in E.
Qed.
Lemma projected_value n x : (0 < n)%Z -> (52 * n <= 2 ^ 53)%Z -> is_finite x = true -> is_finite (projected n x) = true ->
  B2R (projected n x) = rnd (IZR (52 * n) * B2R x) /\ Bsign (projected n x) = Bsign x.
Proof.
  intros N L Fx Fp. destruct (of_Z_correct (52 * n)) as [FZ VZ]; [lia|]. destruct (fmul_cases (of_Z (52 * n)) x FZ Fx) as [(_ & _ & V)|(_ & X)].
  - split; [unfold projected; now rewrite V, VZ|]. assert (SZ : Bsign (of_Z (52 * n)) = false).
    { destruct (of_Z (52 * n)) as [s|s| |s m e H]; try discriminate FZ.
      - cbn [B2R] in VZ. exfalso. change 0 with (IZR 0) in VZ. apply eq_IZR in VZ. lia.
      - destruct s; auto. exfalso. assert (B2R (B754_finite true m e H : f64) < 0) by (cbn [B2R]; apply F2R_lt_0; reflexivity). assert (0 < IZR (52 * n)) by (apply (IZR_lt 0); lia). lra. }
    generalize (Bmult_correct 53 1024 prec_gt_0_53 prec_lt_1024 mode_NE (of_Z (52 * n)) x). fold (fmul (of_Z (52 * n)) x). fold (projected n x). rewrite SZ.
    rewrite xorb_false_l. case Rlt_bool.
    + intros (_ & _ & S). apply S. destruct (projected n x); auto; discriminate Fp.
    + intros O. destruct (projected n x); try discriminate Fp; discriminate O.
  - unfold projected in Fp. congruence.
Qed.
(** 52 times the number of items times the effect, to d decimals, up to the error of one multiplication of doubles *)
Theorem c86_projected_effect_text : forall d n (x : f64), (0 < n)%Z -> (52 * n <= 2 ^ 53)%Z -> is_finite x = true -> is_finite (projected n x) = true ->
  exists v, read_signed (signed_grouped d (projected n x)) = Some v
    /\ Rabs (v - 52 * IZR n * B2R x) <= / 2 * / 10 ^ d + bpow radix2 (-53) * Rabs (52 * IZR n * B2R x) + bpow radix2 (-1075)
    /\ String.get 0 (signed_grouped d (projected n x)) = Some (if Bsign x then "-"%char else "+"%char).
Proof.
  intros d n x N L Fx Fp. destruct (projected_value n x N L Fx Fp) as [V S]. exists (to_decimals d (B2R (projected n x))). split; [now apply signed_grouped_reads|]. split.
  - rewrite V, mult_IZR. assert (E1 := to_decimals_error d (rnd (52 * IZR n * B2R x))). assert (E2 := rnd_error (52 * IZR n * B2R x)).
    replace (to_decimals d (rnd (52 * IZR n * B2R x)) - 52 * IZR n * B2R x) with ((to_decimals d (rnd (52 * IZR n * B2R x)) - rnd (52 * IZR n * B2R x)) + (rnd (52 * IZR n * B2R x) - 52 * IZR n * B2R x)) by ring.
    eapply Rle_trans; [apply Rabs_triang|]. lra.
  - rewrite <- S. unfold signed_grouped, plus_or_minus. destruct (projected n x) as [s|s| |s m e H]; try discriminate Fp; cbn [negative Bsign]; destruct s; reflexivity.
Qed.
(** the bounds and the estimate are shown in their order *)
Theorem c86_projected_interval_text : forall d n (lb x ub : f64), (0 < n)%Z -> (52 * n <= 2 ^ 53)%Z -> is_finite lb = true -> is_finite x = true -> is_finite ub = true ->
  is_finite (projected n lb) = true -> is_finite (projected n x) = true -> is_finite (projected n ub) = true -> B2R lb <= B2R x <= B2R ub ->
  exists s t a v b, format_projected_ci d n lb ub = s ++ " to " ++ t /\ read_signed s = Some a /\ read_signed (signed_grouped d (projected n x)) = Some v /\ read_signed t = Some b
    /\ a <= v <= b.
Proof.
  intros d n lb x ub N L Fl Fx Fu Pl Px Pu [H1 H2].
  exists (signed_grouped d (projected n lb)), (signed_grouped d (projected n ub)), (to_decimals d (B2R (projected n lb))), (to_decimals d (B2R (projected n x))), (to_decimals d (B2R (projected n ub))).
  split; [reflexivity|]. split; [now apply signed_grouped_reads|]. split; [now apply signed_grouped_reads|]. split; [now apply signed_grouped_reads|].
  rewrite (proj1 (projected_value n lb N L Fl Pl)), (proj1 (projected_value n x N L Fx Px)), (proj1 (projected_value n ub N L Fu Pu)).
  assert (0 < IZR (52 * n)) by (apply (IZR_lt 0); lia).
  split; apply round_le; auto with typeclass_instances; apply rnd_le, Rmult_le_compat_l; lra.
Qed.
(** the whole part is written in groups of three digits, the decimals in full *)
Theorem c86_thousands : forall d (x : f64), is_finite x = true ->
  exists sign i f, signed_grouped d x = String sign (i ++ f) /\ in_groups i /\ match d with O => f = "" | _ => exists t, f = String "." t /\ String.length t = d /\ read_digits 0 t <> None end.
Proof.
  intros d x F. set (a := Z.abs (round_times x (10 ^ Z.of_nat d))). assert (A : (0 <= a)%Z) by (unfold a; lia).
  assert (W : signed_grouped d x = String (if negative x then "-" else "+") (grouped_digits d a)).
  { destruct x as [s|s| |s m e H]; try discriminate F; unfold signed_grouped, plus_or_minus; destruct (negative _); reflexivity. }
  rewrite W. exists (if negative x then "-" else "+")%char. unfold grouped_digits. destruct d as [|d].
  - exists (grouped a), "". rewrite app_nil_r_s. split; [reflexivity|]. split; [now apply grouped_groups|reflexivity].
  - set (K := (10 ^ Z.of_nat (S d))%Z). assert (KP : (0 < K)%Z) by (apply pow10_pos; lia). assert (M := Z.mod_pos_bound a K KP).
    destruct (padded_spec (S d) (a mod K)) as [PL PR]; [exact M|lia|].
    exists (grouped (a / K)), ("." ++ padded (S d) (a mod K)). split; [reflexivity|]. split; [apply grouped_groups, Z.div_pos; lia|]. exists (padded (S d) (a mod K)). split; [reflexivity|]. split; [exact PL|congruence].
Qed.
(** an effect can vanish from the projection but not from the absolute effect *)
Theorem c86_projection_keeps_effects_refuted : exists n (x : f64), (0 < n)%Z /\ is_finite x = true /\ B2R x <> 0 /\ signed_grouped 0 (projected n x) = "+0" /\ general 3 x = "+4e-05".
Proof.
  exists 100%Z, (flit 4 100000). split; [lia|]. split; [reflexivity|]. split; [|split; reflexivity].
  apply Rgt_not_eq. apply F2R_gt_0. reflexivity.
Qed.

(** *** The header of the intervals *)
Lemma rnd_within a b x : (Z.abs a <= 2 ^ 53)%Z -> (Z.abs b <= 2 ^ 53)%Z -> IZR a <= x <= IZR b -> IZR a <= rnd x <= IZR b.
Proof. intros A B [H1 H2]. rewrite <- (rnd_IZR a), <- (rnd_IZR b) by auto. split; now apply rnd_le. Qed.
(** the level shown is the level of the first row to a whole percent *)
Theorem c86_header_shows_the_level : forall alpha : f64, is_finite alpha = true -> 0 <= B2R alpha <= 1 ->
  exists k, whole_percent (fsub (of_Z 1) alpha) = dec k ++ "%" /\ (0 <= k <= 100)%Z /\ Rabs (IZR k - 100 * (1 - B2R alpha)) <= / 2 + / 1000.
Proof.
  intros alpha F [A0 A1]. destruct (of_Z_correct 1) as [F1 V1]; [lia|]. destruct (of_Z_correct 100) as [F2 V2]; [lia|].
  assert (B53 : bpow radix2 (-53) <= / 1000000) by (change (bpow radix2 (-53)) with (/ IZR (2 ^ 53)); apply Rinv_le; [lra|apply IZR_le; lia]).
  assert (B75 : bpow radix2 (-1075) <= bpow radix2 (-53)) by (apply bpow_le; lia).
  assert (P53 := bpow_gt_0 radix2 (-53)).
  assert (Y : is_finite (fsub (of_Z 1) alpha) = true /\ B2R (fsub (of_Z 1) alpha) = rnd (1 - B2R alpha)).
  { generalize (Bminus_correct 53 1024 prec_gt_0_53 prec_lt_1024 mode_NE (of_Z 1) alpha F1 F). rewrite V1. rewrite Rlt_bool_true.
    - intros (V & FF & _). split; [exact FF|exact V].
    - apply rnd_abs_lt. rewrite Rabs_pos_eq by lra. apply Rle_trans with 1; [lra|]. apply (bpow_le radix2 0 1023). lia. }
  destruct Y as [FY VY]. set (y := fsub (of_Z 1) alpha) in *.
  assert (YB : 0 <= B2R y <= 1). { rewrite VY. apply (rnd_within 0 1); [lia|lia|lra]. }
  destruct (fmul_cases y (of_Z 100) FY F2) as [(_ & FM & VM)|(X & _)].
  2: { exfalso. apply X. apply rnd_abs_lt. rewrite V2, Rabs_pos_eq by nra. apply Rle_trans with (bpow radix2 7); [change (bpow radix2 7) with 128; nra|apply bpow_le; lia]. }
  set (z := fmul y (of_Z 100)) in *. rewrite V2 in VM.
  assert (ZB : 0 <= B2R z <= 100). { rewrite VM. apply (rnd_within 0 100); [lia|lia|lra]. }
  assert (E1 := rnd_error (1 - B2R alpha)). rewrite <- VY, (Rabs_pos_eq (1 - B2R alpha)) in E1 by lra. 
  assert (E2 := rnd_error (B2R y * 100)). rewrite <- VM, (Rabs_pos_eq (B2R y * 100)) in E2 by lra.
  assert (NG : negative z = false \/ B2R z = 0).
  { destruct z as [s|s| |s m e H]; try discriminate FM; [now right|]. left. destruct s; auto. exfalso. assert (B2R (B754_finite true m e H : f64) < 0) by (cbn [B2R]; apply F2R_lt_0; reflexivity). lra. }
  assert (SY : Bsign y = false).
  { unfold y in *. generalize (Bminus_correct 53 1024 prec_gt_0_53 prec_lt_1024 mode_NE (of_Z 1) alpha F1 F). rewrite V1. rewrite Rlt_bool_true.
    - intros (_ & _ & S). unfold fsub. rewrite S. destruct (Rcompare_spec (1 - B2R alpha) 0); auto. lra.
    - apply rnd_abs_lt. rewrite Rabs_pos_eq by lra. apply Rle_trans with 1; [lra|]. apply (bpow_le radix2 0 1023). lia. }
  assert (NZ : negative z = false).
  { destruct NG as [NG|NG]; auto. generalize (Bmult_correct 53 1024 prec_gt_0_53 prec_lt_1024 mode_NE y (of_Z 100)). fold (fmul y (of_Z 100)). fold z. rewrite SY.
    change (Bsign (of_Z 100)) with false. rewrite xorb_false_l. case Rlt_bool.
    - intros (_ & _ & S). destruct z; try discriminate FM; exact (S eq_refl).
    - intros O. destruct z; try discriminate FM; discriminate O. }
  assert (RT := round_times_nearest z 1 FM). rewrite Rmult_1_r in RT.
  assert (KB : (0 <= ZnearestE (B2R z) <= 100)%Z). { rewrite <- (nearest_IZR 0), <- (nearest_IZR 100). split; apply nearest_mono; lra. }
  exists (ZnearestE (B2R z)). split; [|split; [exact KB|]].
  - unfold whole_percent, fixed. fold z. rewrite NZ. cbn [append]. f_equal.
    assert (U : unsigned_text 0 z = dec (Z.abs (round_times z 1))) by (destruct z; try discriminate FM; reflexivity). rewrite U, RT. now rewrite Z.abs_eq by lia.
  - assert (H := Znearest_half (fun x => negb (Z.even x)) (B2R z)). fold ZnearestE in H.
    apply Rabs_le. apply Rabs_le_inv in E1. apply Rabs_le_inv in E2. apply Rabs_le_inv in H.
    assert (bpow radix2 (-53) * (1 - B2R alpha) <= bpow radix2 (-53)) by nra. assert (bpow radix2 (-53) * (B2R y * 100) <= 100 * bpow radix2 (-53)) by nra. lra.
Qed.
(** at the level of every analysis (C65) the header is 95% *)
Theorem c86_default_header : whole_percent (fsub (of_Z 1) (flit 5 100)) ++ " CI" = "95% CI".
Proof. reflexivity. Qed.

(** *** The table *)
(** the cells of a row *)
Definition cells (relative absolute yearly : bool) (dr da dy : nat) (o : outcome) : list string :=
  ((if relative then match o_rel o with
     | Some (x, lb, ub) => [signed_percent dr x; (signed_percent dr lb ++ " to " ++ signed_percent dr ub)%string]
     | None => ["+nan%"; "+nan% to +nan%"] end else []) ++
   (if absolute then [general da (o_abs o); (general da (o_abs_lower o) ++ " to " ++ general da (o_abs_upper o))%string] else []) ++
   (if yearly then [signed_grouped dy (projected (o_sample_size o) (o_abs o));
       (signed_grouped dy (projected (o_sample_size o) (o_abs_lower o)) ++ " to " ++ signed_grouped dy (projected (o_sample_size o) (o_abs_upper o)))%string] else []) ++
   [format_p_value (o_p_value o) (o_alpha o)])%list.
(** the names of the visible columns *)
Definition headers (relative absolute yearly : bool) (alpha : f64) : list (string * string) :=
  let pair g := [(g, "Point Estimate"); (g, whole_percent (fsub (of_Z 1) alpha) ++ " CI")] in
  ((if relative then pair "Relative Effect Size" else []) ++
   (if absolute then pair "Absolute Effect Size (per item per week)" else []) ++
   (if yearly then pair "Projected Effect Size (whole feed, per year)" else []) ++ [("P-value", "")])%list.

Definition some_relative (l : list outcome) : Prop := exists o, In o l /\ o_rel o <> None.
Lemma existsb_relative l : existsb (fun o => match o_rel o with Some _ => true | None => false end) l = true <-> some_relative l.
Proof.
  rewrite existsb_exists. unfold some_relative. split; intros (o & I & H); exists o; split; auto; destruct (o_rel o); congruence.
Qed.
Definition relative_texts (dr : nat) (o : outcome) : string * string :=
  match o_rel o with
  | Some (x, lb, ub) => (signed_percent dr x, format_relative_ci dr lb ub)
  | None => ("+nan%", "+nan% to +nan%")
  end.
Lemma relative_runs dr l : some_relative l ->
  mapM (fun t => match t with Some (x, lb, ub) => Ok (signed_percent dr x, format_relative_ci dr lb ub) | None => Err cannot_format end) (relative_column l) = Ok (map (relative_texts dr) l).
Proof.
  intros S. unfold relative_column. apply existsb_relative in S. rewrite S. clear S. induction l as [|o l IH]; [reflexivity|]. cbn [map mapM].
  unfold relative_texts at 1. destruct (o_rel o) as [[[x lb] ub]|]; rewrite IH; reflexivity.
Qed.
Lemma relative_fails dr l : l <> [] -> ~ some_relative l ->
  mapM (fun t => match t with Some (x, lb, ub) => Ok (signed_percent dr x, format_relative_ci dr lb ub) | None => Err cannot_format end) (relative_column l) = Err cannot_format.
Proof.
  intros N S. unfold relative_column. rewrite <- existsb_relative in S. apply not_true_is_false in S. rewrite S. destruct l; [contradiction|]. reflexivity.
Qed.
Lemma ok_inj {A : Type} (a b : A) : Ok a = Ok b -> a = b.
Proof. congruence. Qed.
Lemma hidden_raw l rest : let f := (fun c : column => negb (existsb (fun h => andb (String.eqb (fst h) (fst (fst c))) (String.eqb (snd h) (snd (fst c)))) (map (fun c => (c, "")) result_columns))) in
  filter f (raw_columns l ++ rest) = filter f rest.
Proof.
  intros f. rewrite filter_app. assert (E : filter f (raw_columns l) = []) by (unfold raw_columns, result_columns; cbn [map]; reflexivity). now rewrite E.
Qed.

(** a table is shown iff there are results and, if relative effects are wanted, one of them is defined; the visible
    columns are the ones asked for *)
Theorem c86_the_table : forall relative absolute yearly dr da dy l,
  (exists cols, format_results relative absolute yearly dr da dy l = Ok cols) <-> (l <> [] /\ (relative = true -> some_relative l)).
Proof.
  intros relative absolute yearly dr da dy l. destruct l as [|o l]; [split; [intros (c & H); discriminate|intros [H _]; contradiction]|].
  set (ls := o :: l). split.
  - intros (c & H). split; [discriminate|]. intros ->. destruct (existsb (fun o => match o_rel o with Some _ => true | None => false end) ls) eqn:E; [now apply existsb_relative|].
    exfalso. unfold format_results, ls in H. fold ls in H. rewrite relative_fails in H; [discriminate|discriminate|]. intros S. apply existsb_relative in S. congruence.
  - intros [_ S]. unfold format_results, ls. fold ls. destruct relative; [rewrite relative_runs by auto|]; cbn [bind]; eexists; reflexivity.
Qed.
Theorem c86_the_columns : forall relative absolute yearly dr da dy l cols, format_results relative absolute yearly dr da dy l = Ok cols ->
  exists first, hd_error l = Some first /\ map fst cols = headers relative absolute yearly (o_alpha first).
Proof.
  intros relative absolute yearly dr da dy l cols H. destruct l as [|o l]; [discriminate|]. set (ls := o :: l) in *. exists o. split; [reflexivity|].
  unfold format_results, ls in H. fold ls in H. set (ci := whole_percent (fsub (of_Z 1) (o_alpha o)) ++ " CI") in *.
  unfold headers. fold ci. clearbody ci ls.
  destruct relative; cbn [bind] in H.
  1: destruct (mapM _ _) as [texts|] in H; [cbn [bind] in H|discriminate].
  all: apply ok_inj in H; subst cols; rewrite hidden_raw; destruct absolute, yearly; reflexivity.
Qed.
Theorem c86_the_cells : forall relative absolute yearly dr da dy l cols, format_results relative absolute yearly dr da dy l = Ok cols ->
  forall i o, nth_error l i = Some o -> map (fun c => nth_error (snd c) i) cols = map Some (cells relative absolute yearly dr da dy o).
Proof.
  intros relative absolute yearly dr da dy l cols H i o I.
  destruct (proj1 (c86_the_table relative absolute yearly dr da dy l) (ex_intro _ cols H)) as [N S].
  destruct l as [|o1 l]; [contradiction|]. set (ls := o1 :: l) in *.
  unfold format_results, ls in H. fold ls in H. set (ci := whole_percent (fsub (of_Z 1) (o_alpha o1)) ++ " CI") in *. clearbody ci ls.
  assert (M : forall (f : outcome -> string), nth_error (map f ls) i = Some (f o)) by (intros f; now apply map_nth_error).
  assert (M2 : nth_error (map fst (map (relative_texts dr) ls)) i = Some (fst (relative_texts dr o)) /\ nth_error (map snd (map (relative_texts dr) ls)) i = Some (snd (relative_texts dr o))).
  { rewrite !map_map. now rewrite (M (fun o => fst (relative_texts dr o))), (M (fun o => snd (relative_texts dr o))). }
  destruct M2 as [M2 M3]. unfold cells.
  destruct relative; [rewrite relative_runs in H by auto|]; cbn [bind] in H; apply ok_inj in H; subst cols; rewrite hidden_raw; destruct absolute, yearly; cbn [filter app];
    repeat match goal with |- context [negb (existsb ?f ?h)] => change (negb (existsb f h)) with true; cbv iota end; cbn [map snd fst app]; rewrite ?M, ?M2, ?M3;
    unfold relative_texts; try (destruct (o_rel o) as [[[x lb] ub]|]); reflexivity.
Qed.
(** one negative average is enough for a table that cannot be shown: its relative effect is None *)
Theorem c86_every_table_can_be_shown_refuted : exists l, l <> [] /\ format_results true true false 2 3 0 l = Err cannot_format
  /\ exists cols, format_results false true false 2 3 0 l = Ok cols.
Proof.
  exists [mkOut "profit" true (flit 5 100) (flit 1 100) (of_Z 3) (of_Z 1) (of_Z 5) None 100]. split; [discriminate|]. split; [reflexivity|]. apply c86_the_table. split; [discriminate|discriminate].
Qed.
(** the header describes only the first row *)
Theorem c86_one_header_for_all_levels_refuted : exists l cols o, format_results true true false 2 3 0 l = Ok cols /\ In o l /\
  ~ In ("Relative Effect Size", whole_percent (fsub (of_Z 1) (o_alpha o)) ++ " CI") (map fst cols).
Proof.
  set (r := Some (flit 1 10, flit 1 100, flit 2 10)).
  set (l := [mkOut "clicks" true (flit 5 100) (flit 1 100) (of_Z 3) (of_Z 1) (of_Z 5) r 100; mkOut "sales" true (flit 1 10) (flit 1 100) (of_Z 3) (of_Z 1) (of_Z 5) r 100]).
  destruct (proj2 (c86_the_table true true false 2 3 0 l)) as [cols H]; [split; [discriminate|]; intros _; exists (mkOut "clicks" true (flit 5 100) (flit 1 100) (of_Z 3) (of_Z 1) (of_Z 5) r 100); split; [now left|discriminate]|].
  exists l, cols, (mkOut "sales" true (flit 1 10) (flit 1 100) (of_Z 3) (of_Z 1) (of_Z 5) r 100). split; [exact H|]. split; [right; now left|].
  destruct (c86_the_columns _ _ _ _ _ _ _ _ H) as (f & E & ->). injection E as <-. cbn [o_alpha].
  unfold headers. rewrite c86_default_header. change (whole_percent (fsub (of_Z 1) (flit 1 10)) ++ " CI") with "90% CI". intros I.
  repeat destruct I as [I|I]; try discriminate I. contradiction.
Qed.
(** a test at level 0.005 is announced as a 100% interval *)
Theorem c86_no_certain_intervals_refuted : exists alpha : f64, is_finite alpha = true /\ 0 < B2R alpha /\ whole_percent (fsub (of_Z 1) alpha) ++ " CI" = "100% CI".
Proof. exists (flit 5 1000). split; [reflexivity|]. split; [|reflexivity]. apply F2R_gt_0. reflexivity. Qed.

(** *** Example: two metrics, one without a relative effect *)
Definition example_results : list outcome :=
  [mkOut "clicks" true (flit 5 100) (flit 1 1000) (flit 12345 10000) (flit 2 10) (flit 227 100) (Some (flit 1 10, flit 15 1000, flit 19 100)) 1000;
   mkOut "profit" false (flit 5 100) (flit 4 10) (flit 99960 1) (flit (-2) 1) (of_Z 250000) None 1000].
Definition shown_table (r : result (list column)) : list (list string) := match r with Ok cols => map snd cols | Err _ => [] end.
Example c86_example : shown_table (format_results true true true 2 3 0 example_results) =
  [["+10.00%"; "+nan%"]; ["+1.50% to +19.00%"; "+nan% to +nan%"];
   ["+1.23"; "+1e+05"]; ["+0.2 to +2.27"; "-2 to +2.5e+05"];
   ["+64,194"; "+5,197,920,000"]; ["+10,400 to +118,040"; "-104,000 to +13,000,000,000"];
   ["p=0.001 (Significant)"; "p=0.40"]].
Proof. vm_compute. reflexivity. Qed.
Example c86_example_finite : is_finite (flit 12345 10000) = true /\ is_finite (projected 1000 (flit 12345 10000)) = true /\ some_relative example_results.
Proof. split; [reflexivity|]. split; [reflexivity|]. eexists. split; [left; reflexivity|]. discriminate. Qed.

Print Assumptions c86_absolute_effect_text.
Print Assumptions c86_absolute_interval_text.
Print Assumptions c86_no_separators.
Print Assumptions c86_projected_effect_text.
Print Assumptions c86_projected_interval_text.
Print Assumptions c86_thousands.
Print Assumptions c86_projection_keeps_effects_refuted.
Print Assumptions c86_header_shows_the_level.
Print Assumptions c86_default_header.
Print Assumptions c86_the_table.
Print Assumptions c86_the_columns.
Print Assumptions c86_the_cells.
Print Assumptions c86_every_table_can_be_shown_refuted.
Print Assumptions c86_one_header_for_all_levels_refuted.
Print Assumptions c86_no_certain_intervals_refuted.
