(** C76: error bars of intervals with infinite bounds, and the plot of the effects. *)
From Coq Require Import ZArith Reals Lra Lia List String Ascii Bool.
From Flocq Require Import Core.
Require Import Verif.Base Verif.Num Verif.NumOrd Verif.Stats_Num Verif.Design_Model Verif.Bars_Model.
Import ListNotations.
Open Scope list_scope.
Open Scope R_scope.

(** *** Specification: when the bars can be drawn *)
Definition drawn_at (i : interval) (x : R) : Prop := i_value i = Fin x \/ (forall r, i_value i <> Fin r) /\ x = 0.
(** an infinite side is drawn up to the outermost finite bound of all intervals, which must lie on that side *)
Definition left_fits (l : list interval) (i : interval) : Prop :=
  forall x, drawn_at i x ->
    (forall b, i_lb i = Fin b -> b <= x) /\ ((forall b, i_lb i <> Fin b) -> exists j b, In j l /\ i_lb j = Fin b /\ b <= x).
Definition right_fits (l : list interval) (i : interval) : Prop :=
  forall x, drawn_at i x ->
    (forall b, i_ub i = Fin b -> x <= b) /\ ((forall b, i_ub i <> Fin b) -> exists j b, In j l /\ i_ub j = Fin b /\ x <= b).

(** *** Lemmas *)
Lemma fin_cases x : (exists r, x = Fin r /\ nis_fin x = true) \/ ((forall r, x <> Fin r) /\ nis_fin x = false).
Proof. destruct x; [left; eauto|right; split; [congruence|auto]..]. Qed.
Lemma point_spec i : exists x, point i = Fin x /\ drawn_at i x.
Proof.
  unfold point, drawn_at. destruct (fin_cases (i_value i)) as [(r & E & ->)|[N ->]]; [exists r|exists 0]; auto.
Qed.
Lemma drawn_unique i x y : drawn_at i x -> drawn_at i y -> x = y.
Proof. intros [H|[H H']] [K|[K K']]; try congruence; exfalso; eauto. Qed.

Lemma np_min_fin l : (forall x, In x l -> exists r, x = Fin r) -> l <> [] ->
  exists m, np_min l = Ok (Fin m) /\ In (Fin m) l /\ forall r, In (Fin r) l -> m <= r.
Proof.
  destruct l as [|x l]; [congruence|]. intros H _. destruct (H x (or_introl eq_refl)) as (r & ->). cbn [np_min].
  assert (G : forall l r, (forall x, In x l -> exists r, x = Fin r) -> exists m, fold_left nmin2 l (Fin r) = Fin m /\ (m = r \/ In (Fin m) l) /\ m <= r /\ forall u, In (Fin u) l -> m <= u).
  { clear. induction l as [|y l IH]; intros r H; [exists r; repeat split; auto; [lra|intros u []]|].
    destruct (H y (or_introl eq_refl)) as (s & ->). cbn [fold_left]. unfold nmin2 at 2.
    assert (H' : forall x, In x l -> exists r, x = Fin r) by (intros; apply H; now right).
    destruct (nleb (Fin r) (Fin s)) eqn:E; [apply nleb_fin in E; destruct (IH r H') as (m & A & B & C & D)|].
    - exists m. split; auto. split; [destruct B; auto; right; now right|]. split; auto. intros u [Q|Hu]; auto. assert (s = u) by congruence. lra.
    - assert (L : s < r) by (apply Rnot_le_lt; intros L; apply nleb_fin in L; congruence).
      destruct (IH s H') as (m & A & B & C & D). exists m. split; auto. split; [right; destruct B as [->|B]; [now left|now right]|]. split; [lra|].
      intros u [Q|Hu]; auto. assert (s = u) by congruence. lra. }
  destruct (G l r ltac:(intros; apply H; now right)) as (m & A & B & C & D). exists m. rewrite A. split; auto. split; [destruct B as [->|B]; [now left|now right]|].
  intros u [Q|Hu]; auto. assert (r = u) by congruence. lra.
Qed.
Lemma np_max_fin l : (forall x, In x l -> exists r, x = Fin r) -> l <> [] ->
  exists m, np_max l = Ok (Fin m) /\ In (Fin m) l /\ forall r, In (Fin r) l -> r <= m.
Proof.
  destruct l as [|x l]; [congruence|]. intros H _. destruct (H x (or_introl eq_refl)) as (r & ->). cbn [np_max].
  assert (G : forall l r, (forall x, In x l -> exists r, x = Fin r) -> exists m, fold_left nmax2 l (Fin r) = Fin m /\ (m = r \/ In (Fin m) l) /\ r <= m /\ forall u, In (Fin u) l -> u <= m).
  { clear. induction l as [|y l IH]; intros r H; [exists r; repeat split; auto; [lra|intros u []]|].
    destruct (H y (or_introl eq_refl)) as (s & ->). cbn [fold_left]. unfold nmax2 at 2.
    assert (H' : forall x, In x l -> exists r, x = Fin r) by (intros; apply H; now right).
    destruct (nleb (Fin r) (Fin s)) eqn:E.
    - apply nleb_fin in E. destruct (IH s H') as (m & A & B & C & D).
      exists m. split; auto. split; [right; destruct B as [->|B]; [now left|now right]|]. split; [lra|]. intros u [Q|Hu]; auto. assert (s = u) by congruence. lra.
    - assert (L : s < r) by (apply Rnot_le_lt; intros L; apply nleb_fin in L; congruence).
      destruct (IH r H') as (m & A & B & C & D). exists m. split; auto. split; [destruct B; auto; right; now right|]. split; auto.
      intros u [Q|Hu]; auto. assert (s = u) by congruence. lra. }
  destruct (G l r ltac:(intros; apply H; now right)) as (m & A & B & C & D). exists m. rewrite A. split; auto. split; [destruct B as [->|B]; [now left|now right]|].
  intros u [Q|Hu]; auto. assert (r = u) by congruence. lra.
Qed.

Lemma errorbar_ok bars x : errorbar bars = Ok x <-> x = bars /\ forall b, In b bars -> nltb (b_left b) (Fin 0) = false /\ nltb (b_right b) (Fin 0) = false.
Proof.
  unfold errorbar. destruct (existsb _ bars) eqn:E.
  - split; [discriminate|]. intros [_ H]. apply existsb_exists in E as (b & Hb & E). destruct (H b Hb) as [A B]. rewrite A, B in E. discriminate.
  - split; [intros [= <-]; split; auto|intros [-> _]; auto]. intros b Hb. apply orb_false_iff.
    destruct (orb _ _) eqn:Q; auto. assert (existsb (fun b => orb (nltb (b_left b) (Fin 0)) (nltb (b_right b) (Fin 0))) bars = true); [|congruence].
    apply existsb_exists. exists b. auto.
Qed.
Lemma not_neg r : nltb (Fin r) (Fin 0) = false <-> 0 <= r.
Proof. apply nltb_fin_false. Qed.

Lemma bounds_min (f : interval -> num) l j b : In j l -> f j = Fin b ->
  exists m, np_min (filter nis_fin (map f l)) = Ok (Fin m) /\ (exists k, In k l /\ f k = Fin m) /\ forall k r, In k l -> f k = Fin r -> m <= r.
Proof.
  intros Hj Eb. destruct (np_min_fin (filter nis_fin (map f l))) as (m & A & B & D).
  - intros x Hx. apply filter_In in Hx as [_ Hx]. destruct x; try discriminate. eauto.
  - intros E. assert (I : In (Fin b) (filter nis_fin (map f l))) by (apply filter_In; split; auto; rewrite <- Eb; now apply in_map). rewrite E in I. destruct I.
  - exists m. split; auto. split.
    + apply filter_In in B as [B _]. apply in_map_iff in B as (k & E & Hk). eauto.
    + intros k r Hk E. apply D. apply filter_In. split; auto. rewrite <- E. now apply in_map.
Qed.
Lemma bounds_max (f : interval -> num) l j b : In j l -> f j = Fin b ->
  exists m, np_max (filter nis_fin (map f l)) = Ok (Fin m) /\ (exists k, In k l /\ f k = Fin m) /\ forall k r, In k l -> f k = Fin r -> r <= m.
Proof.
  intros Hj Eb. destruct (np_max_fin (filter nis_fin (map f l))) as (m & A & B & D).
  - intros x Hx. apply filter_In in Hx as [_ Hx]. destruct x; try discriminate. eauto.
  - intros E. assert (I : In (Fin b) (filter nis_fin (map f l))) by (apply filter_In; split; auto; rewrite <- Eb; now apply in_map). rewrite E in I. destruct I.
  - exists m. split; auto. split.
    + apply filter_In in B as [B _]. apply in_map_iff in B as (k & E & Hk). eauto.
    + intros k r Hk E. apply D. apply filter_In. split; auto. rewrite <- E. now apply in_map.
Qed.
Lemma no_bounds (f : interval -> num) l : (forall j b, In j l -> f j <> Fin b) -> filter nis_fin (map f l) = [].
Proof.
  intros H. destruct (filter nis_fin (map f l)) as [|x r] eqn:E; auto. exfalso.
  assert (I : In x (filter nis_fin (map f l))) by (rewrite E; now left). apply filter_In in I as [I F]. apply in_map_iff in I as (j & Ej & Hj). destruct x; try discriminate. exact (H j _ Hj Ej).
Qed.
Lemma some_bound (f : interval -> num) l : (exists j b, In j l /\ f j = Fin b) \/ (forall j b, In j l -> f j <> Fin b).
Proof.
  induction l as [|i l [(j & b & Hj & E)|H]]; [right; intros j b []|left; exists j, b; split; auto; now right|].
  destruct (fin_cases (f i)) as [(r & E & _)|[N _]]; [left; exists i, r; split; auto; now left|right]. intros j b [<-|Hj]; auto.
Qed.

(** *** When bars are drawn *)
Theorem c76_drawn_iff_every_side_fits :
  forall l, is_ok (error_bars l) <-> forall i, In i l -> left_fits l i /\ right_fits l i.
Proof.
  intros l. destruct l as [|i0 l0]; [split; [intros _ i []|intros _; eexists; reflexivity]|]. set (l := i0 :: l0).
  change (error_bars l) with (
    let! lb := np_min (filter nis_fin (map i_lb l)) in
    let! ub := np_max (filter nis_fin (map i_ub l)) in
    let! main := errorbar (map (fun i => mkBar (point i) (if nis_fin (i_lb i) then nsub (point i) (i_lb i) else Fin 0) (if nis_fin (i_ub i) then nsub (i_ub i) (point i) else Fin 0)) l) in
    let! to_left := errorbar (map (fun i => let e := nsub (point i) lb in mkBar (point i) e e) (filter (fun i => negb (nis_fin (i_lb i))) l)) in
    let! to_right := errorbar (map (fun i => let e := nsub ub (point i) in mkBar (point i) e e) (filter (fun i => negb (nis_fin (i_ub i))) l)) in
    Ok (main, to_left, to_right)).
  split.
  - intros (((mn0 & lf0) & rt0) & H). apply bind_ok in H as (lb & HL & H). apply bind_ok in H as (ub & HU & H).
    apply bind_ok in H as (mn & HM & H). apply bind_ok in H as (lf & HF & H). apply bind_ok in H as (rt & HR & H).
    apply errorbar_ok in HM as [_ HM]. apply errorbar_ok in HF as [_ HF]. apply errorbar_ok in HR as [_ HR].
    destruct (some_bound i_lb l) as [(j & b & Hj & Eb)|N]; [|rewrite (no_bounds _ _ N) in HL; discriminate].
    destruct (some_bound i_ub l) as [(j' & b' & Hj' & Eb')|N]; [|rewrite (no_bounds _ _ N) in HU; discriminate].
    destruct (bounds_min i_lb l j b Hj Eb) as (m & EM & (km & Hkm & Ekm) & _). destruct (bounds_max i_ub l j' b' Hj' Eb') as (M & EX & (kM & HkM & EkM) & _).
    assert (lb = Fin m) by congruence. assert (ub = Fin M) by congruence. subst lb ub.
    intros i Hi. destruct (point_spec i) as (x & PX & DX).
    specialize (HM _ (in_map _ _ _ Hi)). cbn [b_left b_right] in HM. rewrite PX in HM. destruct HM as [M1 M2].
    split; intros y DY; rewrite <- (drawn_unique i x y DX DY); split.
    + intros c Ec. rewrite Ec in M1. cbn [nis_fin nsub nneg nadd] in M1. apply not_neg in M1. lra.
    + intros N. exists km, m. split; auto. split; auto.
      assert (I : In i (filter (fun i => negb (nis_fin (i_lb i))) l)) by (apply filter_In; split; auto; destruct (i_lb i); auto; now elim (N r)).
      specialize (HF _ (in_map _ _ _ I)). cbn [b_left b_right] in HF. rewrite PX in HF. cbn [nsub nneg nadd] in HF. destruct HF as [HF _]. apply not_neg in HF. lra.
    + intros c Ec. rewrite Ec in M2. cbn [nis_fin nsub nneg nadd] in M2. apply not_neg in M2. lra.
    + intros N. exists kM, M. split; auto. split; auto.
      assert (I : In i (filter (fun i => negb (nis_fin (i_ub i))) l)) by (apply filter_In; split; auto; destruct (i_ub i); auto; now elim (N r)).
      specialize (HR _ (in_map _ _ _ I)). cbn [b_left b_right] in HR. rewrite PX in HR. cbn [nsub nneg nadd] in HR. destruct HR as [HR _]. apply not_neg in HR. lra.
  - intros H. assert (I0 : In i0 l) by now left.
    assert (BL : exists j b, In j l /\ i_lb j = Fin b).
    { destruct (point_spec i0) as (x & _ & DX). destruct (H i0 I0) as [HL _]. destruct (HL x DX) as [_ HL']. destruct (fin_cases (i_lb i0)) as [(r & E & _)|[N _]]; [exists i0, r; auto|].
      destruct (HL' N) as (j & b & A & B & _). eauto. }
    assert (BU : exists j b, In j l /\ i_ub j = Fin b).
    { destruct (point_spec i0) as (x & _ & DX). destruct (H i0 I0) as [_ HL]. destruct (HL x DX) as [_ HL']. destruct (fin_cases (i_ub i0)) as [(r & E & _)|[N _]]; [exists i0, r; auto|].
      destruct (HL' N) as (j & b & A & B & _). eauto. }
    destruct BL as (j & b & Hj & Eb). destruct BU as (j' & b' & Hj' & Eb').
    destruct (bounds_min i_lb l j b Hj Eb) as (m & -> & _ & Lm). destruct (bounds_max i_ub l j' b' Hj' Eb') as (M & -> & _ & LM). cbn [bind].
    assert (OK : forall bars, (forall b, In b bars -> nltb (b_left b) (Fin 0) = false /\ nltb (b_right b) (Fin 0) = false) -> errorbar bars = Ok bars) by (intros; apply errorbar_ok; auto).
    rewrite OK; [|]. cbn [bind]. rewrite OK. cbn [bind]. rewrite OK. cbn [bind]. eexists; reflexivity.
    + intros q Hq. apply in_map_iff in Hq as (i & <- & Hi). apply filter_In in Hi as [Hi F]. cbn [b_left b_right].
      destruct (point_spec i) as (x & PX & DX). rewrite PX. cbn [nsub nneg nadd]. destruct (H i Hi) as [_ HR]. destruct (HR x DX) as [_ HR'].
      destruct HR' as (k & c & Hk & Ec & L); [destruct (i_ub i); try discriminate; congruence|]. assert (X := LM k c Hk Ec). split; apply not_neg; lra.
    + intros q Hq. apply in_map_iff in Hq as (i & <- & Hi). apply filter_In in Hi as [Hi F]. cbn [b_left b_right].
      destruct (point_spec i) as (x & PX & DX). rewrite PX. cbn [nsub nneg nadd]. destruct (H i Hi) as [HR _]. destruct (HR x DX) as [_ HR'].
      destruct HR' as (k & c & Hk & Ec & L); [destruct (i_lb i); try discriminate; congruence|]. assert (X := Lm k c Hk Ec). split; apply not_neg; lra.
    + intros q Hq. apply in_map_iff in Hq as (i & <- & Hi). cbn [b_left b_right].
      destruct (point_spec i) as (x & PX & DX). rewrite PX. destruct (H i Hi) as [HL HR]. destruct (HL x DX) as [HL1 _]. destruct (HR x DX) as [HR1 _]. split.
      * destruct (fin_cases (i_lb i)) as [(r & E & ->)|[_ ->]]; [|apply not_neg; lra]. rewrite E. cbn [nsub nneg nadd]. apply not_neg. specialize (HL1 r E). lra.
      * destruct (fin_cases (i_ub i)) as [(r & E & ->)|[_ ->]]; [|apply not_neg; lra]. rewrite E. cbn [nsub nneg nadd]. apply not_neg. specialize (HR1 r E). lra.
Qed.

(** *** Drawn bars are finite *)
Definition finite_bar (b : bar) : Prop := exists x p q, b = mkBar (Fin x) (Fin p) (Fin q) /\ 0 <= p /\ 0 <= q.
Theorem c76_drawn_bars_are_finite :
  forall l main to_left to_right, error_bars l = Ok (main, to_left, to_right) ->
  forall b, In b (main ++ to_left ++ to_right) -> finite_bar b.
Proof.
  intros l main to_left to_right H. destruct l as [|i0 l0]; [injection H as <- <- <-; intros b []|].
  cbn [error_bars] in H. set (l := i0 :: l0) in *.
  apply bind_ok in H as (lb & HL & H). apply bind_ok in H as (ub & HU & H).
  apply bind_ok in H as (mn & HM & H). apply bind_ok in H as (lf & HF & H). apply bind_ok in H as (rt & HR & H). injection H as <- <- <-.
  apply errorbar_ok in HM as [-> HM]. apply errorbar_ok in HF as [-> HF]. apply errorbar_ok in HR as [-> HR].
  destruct (some_bound i_lb l) as [(j & b & Hj & Eb)|N]; [|rewrite (no_bounds _ _ N) in HL; discriminate].
  destruct (some_bound i_ub l) as [(j' & b' & Hj' & Eb')|N]; [|rewrite (no_bounds _ _ N) in HU; discriminate].
  destruct (bounds_min i_lb l j b Hj Eb) as (m & EM & _). destruct (bounds_max i_ub l j' b' Hj' Eb') as (M & EX & _).
  assert (lb = Fin m) by congruence. assert (ub = Fin M) by congruence. subst lb ub.
  intros q Hq. rewrite !in_app_iff in Hq. destruct Hq as [Hq|[Hq|Hq]].
  - destruct (HM q Hq) as [A B]. apply in_map_iff in Hq as (i & <- & Hi). destruct (point_spec i) as (x & PX & _). rewrite PX in *. cbn [b_left b_right] in *.
    destruct (fin_cases (i_lb i)) as [(r & E & F)|[_ F]]; destruct (fin_cases (i_ub i)) as [(s & E' & F')|[_ F']]; rewrite F, F' in *; try rewrite E in *; try rewrite E' in *; cbn [nsub nneg nadd] in *; apply not_neg in A, B; do 3 eexists; split; try reflexivity; auto.
  - destruct (HF q Hq) as [A B]. apply in_map_iff in Hq as (i & <- & Hi). destruct (point_spec i) as (x & PX & _). rewrite PX in *. cbn [b_left b_right nsub nneg nadd] in *. apply not_neg in A, B. do 3 eexists; split; try reflexivity; auto.
  - destruct (HR q Hq) as [A B]. apply in_map_iff in Hq as (i & <- & Hi). destruct (point_spec i) as (x & PX & _). rewrite PX in *. cbn [b_left b_right nsub nneg nadd] in *. apply not_neg in A, B. do 3 eexists; split; try reflexivity; auto.
Qed.

(** finite intervals around finite estimates are drawn exactly from bound to bound, and nothing else is drawn *)
Theorem c76_finite_intervals_are_drawn_exactly :
  forall (rows : list (R * R * R)), rows <> [] -> (forall x a b, In (x, a, b) rows -> a <= x <= b) ->
  error_bars (map (fun '(x, a, b) => mkI (Fin x) (Fin a) (Fin b)) rows) =
    Ok (map (fun '(x, a, b) => mkBar (Fin x) (Fin (x - a)) (Fin (b - x))) rows, [], []).
Proof.
  intros rows NE H. set (l := map _ rows). destruct (proj2 (c76_drawn_iff_every_side_fits l)) as (((mn & lf) & rt) & E).
  - intros i Hi. unfold l in Hi. apply in_map_iff in Hi as (((x & a) & b) & <- & Hi). specialize (H x a b Hi).
    split; intros y D; assert (Y : y = x) by (destruct D as [D|[D _]]; cbn in D; [congruence|now elim (D x)]); subst y; cbn; (split; [intros c [= <-]; lra|intros N; now elim (N _ eq_refl)]).
  - rewrite E. destruct l as [|i0 l0] eqn:L; [unfold l in L; destruct rows; [congruence|discriminate]|]. cbn [error_bars] in E. rewrite <- L in E.
    apply bind_ok in E as (lb & _ & E). apply bind_ok in E as (ub & _ & E).
    apply bind_ok in E as (mn' & HM & E). apply bind_ok in E as (lf' & HF & E). apply bind_ok in E as (rt' & HR & E). injection E as <- <- <-.
    apply errorbar_ok in HM as [-> _]. apply errorbar_ok in HF as [-> _]. apply errorbar_ok in HR as [-> _]. subst l. rewrite map_map.
    assert (F : forall (g : num -> bool) (h : interval -> num), (forall x a b, In (x, a, b) rows -> g (h (mkI (Fin x) (Fin a) (Fin b))) = false) ->
      filter (fun i => g (h i)) (map (fun '(x, a, b) => mkI (Fin x) (Fin a) (Fin b)) rows) = []).
    { clear. intros g h. induction rows as [|((x & a) & b) rows IH]; intros H; auto. cbn [map filter]. rewrite H by now left. apply IH. intros; apply H; now right. }
    rewrite (F (fun x => negb (nis_fin x)) i_lb), (F (fun x => negb (nis_fin x)) i_ub) by reflexivity. cbn [map].
    f_equal. f_equal. f_equal. apply map_ext. intros ((x & a) & b). cbn. f_equal.
Qed.

(** *** The documented handling of infinities *)
(** an interval shown on its own needs two finite bounds around its point *)
Theorem c76_single_interval :
  forall i, is_ok (error_bars [i]) <-> exists x a b, drawn_at i x /\ i_lb i = Fin a /\ i_ub i = Fin b /\ a <= x <= b.
Proof.
  intros i. rewrite c76_drawn_iff_every_side_fits. split.
  - intros H. destruct (H i (or_introl eq_refl)) as [L U]. destruct (point_spec i) as (x & _ & D). destruct (L x D) as [L1 L2]. destruct (U x D) as [U1 U2].
    destruct (fin_cases (i_lb i)) as [(a & Ea & _)|[N _]]; [|destruct (L2 N) as (j & b & [<-|[]] & E & _); now elim (N b)].
    destruct (fin_cases (i_ub i)) as [(b & Eb & _)|[N _]]; [|destruct (U2 N) as (j & b & [<-|[]] & E & _); now elim (N b)].
    exists x, a, b. specialize (L1 a Ea). specialize (U1 b Eb). auto.
  - intros (x & a & b & D & Ea & Eb & I) j [<-|[]]. split; intros y DY; rewrite (drawn_unique i y x DY D); (split; [intros c Ec; assert (a = c \/ b = c) by (rewrite ?Ea, ?Eb in Ec; injection Ec; auto)|intros N; now elim (N _ ltac:(eassumption))]).
    + rewrite Ea in Ec. injection Ec as <-. lra.
    + rewrite Eb in Ec. injection Ec as <-. lra.
Qed.

(** an interval that contains its estimate, possibly unbounded *)
Definition proper (i : interval) : Prop := nleb (i_lb i) (i_value i) = true /\ nleb (i_value i) (i_ub i) = true.
Lemma np_min_err l e : np_min l = Err e -> exists m, e = ValueError m.
Proof. destruct l; [intros [= <-]; eauto|discriminate]. Qed.
Lemma np_max_err l e : np_max l = Err e -> exists m, e = ValueError m.
Proof. destruct l; [intros [= <-]; eauto|discriminate]. Qed.
Lemma error_bars_err l e : error_bars l = Err e -> exists m, e = ValueError m.
Proof.
  intros H. destruct l as [|i0 l0]; [discriminate|]. cbn [error_bars] in H.
  assert (EB : forall bars, errorbar bars = Err e -> exists m, e = ValueError m) by (intros bars; unfold errorbar; destruct (existsb _ _); [intros [= <-]; eauto|discriminate]).
  destruct (np_min _) eqn:A in H; cbn [bind] in H; [|injection H as ->; eapply np_min_err; eassumption].
  destruct (np_max _) eqn:B in H; cbn [bind] in H; [|injection H as ->; eapply np_max_err; eassumption].
  repeat match type of H with bind (errorbar ?b) _ = _ => let X := fresh in destruct (errorbar b) eqn:X; [cbn [bind] in H|injection H as ->; eapply EB; eassumption] end. discriminate.
Qed.
Theorem c76_failures_are_value_errors :
  forall l e, error_bars l = Err e -> exists m, e = ValueError m.
Proof. exact error_bars_err. Qed.

(** the docstring's promise to handle infinities fails, with one unbounded interval and also beside a bounded one *)
Theorem c76_infinities_are_handled_refuted :
  (exists i, proper i /\ ~ is_ok (error_bars [i])) /\
  exists i j, proper i /\ proper j /\ i_lb i = Fin (1/2) /\ i_ub i = Fin 2 /\ i_lb j = NInf /\ i_ub j = Fin 1 /\ ~ is_ok (error_bars [i; j]).
Proof.
  split.
  - exists (mkI (Fin 0) NInf PInf). split; [split; reflexivity|]. rewrite c76_single_interval. intros (x & a & b & _ & E & _). discriminate.
  - exists (mkI (Fin 1) (Fin (1/2)) (Fin 2)), (mkI (Fin 0) NInf (Fin 1)). unfold proper. cbn [i_lb i_ub i_value].
    split; [split; apply nleb_fin; lra|]. split; [split; [reflexivity|apply nleb_fin; lra]|]. do 4 (split; [reflexivity|]).
    rewrite c76_drawn_iff_every_side_fits. intros H. destruct (H (mkI (Fin 0) NInf (Fin 1))) as [L _]; [right; now left|].
    destruct (L 0 (or_introl eq_refl)) as [_ L']. destruct L' as (j & b & [<-|[<-|[]]] & E & X); [intros b Hb; discriminate Hb|cbn in E; injection E as <-; lra|discriminate E].
Qed.

(** *** The plot of the effects *)
Definition same_name (a b : string) : Prop := lower a = lower b.
Lemma is_primary_spec m e : String.eqb (lower (e_metric e)) (lower m) = true <-> same_name (e_metric e) m.
Proof. apply String.eqb_eq. Qed.
(** rows of the secondary metrics with the given significance *)
Definition secondary (data : list effect) (m : string) (s : bool) (l : list interval) : Prop :=
  forall i, In i l <-> exists e, In e data /\ ~ same_name (e_metric e) m /\ e_significant e = s /\ e_interval e = i.
Definition fits (l : list interval) : Prop := forall i, In i l -> left_fits l i /\ right_fits l i.
Lemma fits_ext l l' : (forall i, In i l <-> In i l') -> fits l -> fits l'.
Proof.
  intros E H i Hi. apply E in Hi. destruct (H i Hi) as [L R]. split; intros x D.
  - destruct (L x D) as [A B]. split; auto. intros N. destruct (B N) as (j & b & Hj & X). exists j, b. split; auto. now apply E.
  - destruct (R x D) as [A B]. split; auto. intros N. destruct (B N) as (j & b & Hj & X). exists j, b. split; auto. now apply E.
Qed.

Theorem c76_plot_effects_succeeds_iff :
  forall data m sig nonsig, secondary data m true sig -> secondary data m false nonsig ->
  (is_ok (plot_effects data m) <->
   exists before p after, data = before ++ p :: after /\ same_name (e_metric p) m /\
     (forall e, In e (before ++ after) -> ~ same_name (e_metric e) m) /\
     (exists x a b, drawn_at (e_interval p) x /\ i_lb (e_interval p) = Fin a /\ i_ub (e_interval p) = Fin b /\ a <= x <= b) /\
     fits sig /\ fits nonsig).
Proof.
  intros data m sig nonsig HS HN. unfold plot_effects.
  set (pr := fun e => String.eqb (lower (e_metric e)) (lower m)).
  assert (PF : forall e, pr e = false <-> ~ same_name (e_metric e) m) by (intros e; rewrite <- is_primary_spec; unfold pr; destruct (String.eqb _ _); split; congruence || intros; try discriminate; exfalso; auto).
  assert (S1 : forall i, In i sig <-> In i (map e_interval (filter e_significant (filter (fun e => negb (pr e)) data)))).
  { intros i. rewrite (HS i), in_map_iff. split.
    - intros (e & He & N & S & E). exists e. split; auto. rewrite !filter_In. apply PF in N. rewrite N. auto.
    - intros (e & E & He). rewrite !filter_In in He. destruct He as [[He N] S]. exists e. split; auto. split; auto. apply PF. now apply negb_true_iff. }
  assert (S2 : forall i, In i nonsig <-> In i (map e_interval (filter (fun e => negb (e_significant e)) (filter (fun e => negb (pr e)) data)))).
  { intros i. rewrite (HN i), in_map_iff. split.
    - intros (e & He & N & S & E). exists e. split; auto. rewrite !filter_In. apply PF in N. rewrite N, S. auto.
    - intros (e & E & He). rewrite !filter_In in He. destruct He as [[He N] S]. exists e. split; auto. split; [apply PF; now apply negb_true_iff|]. split; auto. now apply negb_true_iff. }
  assert (ONE : forall p, filter pr data = [p] <-> exists before after, data = before ++ p :: after /\ same_name (e_metric p) m /\ forall e, In e (before ++ after) -> ~ same_name (e_metric e) m).
  { clear - PF. assert (NONE : forall d, filter pr d = [] <-> forall e, In e d -> ~ same_name (e_metric e) m).
    { induction d as [|e d IH]; cbn [filter]; [split; [intros _ e []|auto]|]. destruct (pr e) eqn:E; split; intros H; try discriminate.
      - exfalso. apply (H e); [now left|]. now apply is_primary_spec.
      - intros e' [<-|He]; [now apply PF|]. now apply IH.
      - apply IH. intros; apply H; now right. }
    intros p. induction data as [|e d IH]; cbn [filter]; [split; [discriminate|intros (b & a & E & _); destruct b; discriminate]|].
    destruct (pr e) eqn:E; split; intros H.
    - injection H as -> H. exists [], d. split; auto. split; [now apply is_primary_spec|]. now apply NONE.
    - destruct H as (b & a & Q & S & N). destruct b as [|e' b]; cbn in Q; injection Q as -> ->; [f_equal; now apply NONE|].
      exfalso. apply (N e'); [now left|]. now apply is_primary_spec.
    - apply IH in H as (b & a & -> & S & N). exists (e :: b), a. split; auto. split; auto. intros e' [<-|He]; [now apply PF|auto].
    - apply IH. destruct H as (b & a & Q & S & N). destruct b as [|e' b]; cbn in Q; injection Q as -> ->; [apply is_primary_spec in S; fold (pr p) in S; congruence|].
      exists b, a. split; auto. split; auto. intros; apply N; now right. }
  split.
  - intros (d & H). destruct (filter pr data) as [|p [|q r]] eqn:F in H; try discriminate.
    apply bind_ok in H as (a & HA & H). apply bind_ok in H as (b & HB & H). apply bind_ok in H as (c & HC & H).
    apply ONE in F as (before & after & Q & S & N). exists before, p, after. split; auto. split; auto. split; auto. split; [apply c76_single_interval; eexists; eassumption|].
    assert (FB := proj1 (c76_drawn_iff_every_side_fits _) (ex_intro _ _ HB)). assert (FC := proj1 (c76_drawn_iff_every_side_fits _) (ex_intro _ _ HC)).
    split; [eapply fits_ext; [|exact FB]|eapply fits_ext; [|exact FC]]; intros i; symmetry; [apply S1|apply S2].
  - intros (before & p & after & Q & S & N & X & FS & FN).
    assert (F : filter pr data = [p]) by (apply ONE; eauto). fold pr. rewrite F.
    apply c76_single_interval in X as (a & ->). cbn [bind].
    apply (fits_ext _ _ S1), c76_drawn_iff_every_side_fits in FS as (b & EB).
    match goal with |- context [bind ?t _] => replace t with (Ok b) by (symmetry; exact EB) end. cbn [bind].
    apply (fits_ext _ _ S2), c76_drawn_iff_every_side_fits in FN as (c & EC).
    match goal with |- context [bind ?t _] => replace t with (Ok c) by (symmetry; exact EC) end. cbn [bind]. eexists; reflexivity.
Qed.

(** a primary metric whose interval is unbounded on a side cannot be plotted, whatever the other rows *)
Corollary unbounded_primary_fails data m p :
  In p data -> same_name (e_metric p) m -> (forall r, i_lb (e_interval p) <> Fin r) \/ (forall r, i_ub (e_interval p) <> Fin r) ->
  ~ is_ok (plot_effects data m).
Proof.
  intros Hp S U H.
  assert (G : forall s, exists l, secondary data m s l).
  { intros s. exists (map e_interval (filter (fun e => Bool.eqb (e_significant e) s) (filter (fun e => negb (String.eqb (lower (e_metric e)) (lower m))) data))).
    intros i. rewrite in_map_iff. split.
    - intros (e & E & He). rewrite !filter_In in He. destruct He as [[He N] B]. exists e. split; auto. split; [|split; auto; now apply Bool.eqb_prop].
      rewrite <- is_primary_spec. destruct (String.eqb _ _); discriminate.
    - intros (e & He & N & B & E). exists e. split; auto. rewrite !filter_In. rewrite <- is_primary_spec in N. destruct (String.eqb _ _); [now elim N|]. subst s. rewrite Bool.eqb_reflx. auto. }
  destruct (G true) as (l1 & H1). destruct (G false) as (l2 & H2).
  apply (c76_plot_effects_succeeds_iff data m l1 l2 H1 H2) in H as (b & q & a & E & S' & N & (x & u & v & _ & A & B & _) & _).
  assert (p = q).
  { rewrite E in Hp. apply in_app_iff in Hp as [Hp|[Hp|Hp]]; auto; exfalso; apply (N p); auto; apply in_app_iff; auto. }
  subst q. destruct U as [U|U]; eapply U; eassumption.
Qed.
Theorem c76_unbounded_primary_metric_fails :
  forall data m p, In p data -> same_name (e_metric p) m ->
  (forall r, i_lb (e_interval p) <> Fin r) \/ (forall r, i_ub (e_interval p) <> Fin r) ->
  exists message, plot_effects data m = Err (ValueError message).
Proof.
  intros data m p Hp S U. assert (F := unbounded_primary_fails data m p Hp S U).
  destruct (plot_effects data m) as [d|e] eqn:E; [elim F; eexists; reflexivity|].
  enough (exists x, e = ValueError x) as (x & ->) by eauto. clear F.
  unfold plot_effects in E. destruct (filter _ data) as [|q [|q' r]]; [injection E as <-; eauto| |injection E as <-; eauto].
  destruct (error_bars [e_interval q]) eqn:A; cbn [bind] in E; [|injection E as <-; eapply error_bars_err; eassumption].
  match type of E with bind ?t _ = _ => destruct t eqn:B end; cbn [bind] in E; [|injection E as <-; eapply error_bars_err; eassumption].
  match type of E with bind ?t _ = _ => destruct t eqn:C end; cbn [bind] in E; [discriminate|injection E as <-; eapply error_bars_err; eassumption].
Qed.

(** an infinite side next to a wider finite interval is drawn up to that interval's bound *)
Example c76_example :
  let i := mkI (Fin 1) (Fin (-1)) (Fin 2) in let j := mkI (Fin 0) NInf (Fin 1) in
  fits [i; j] /\ is_ok (error_bars [i; j]) /\
  is_ok (plot_effects [mkE "Clicks" (mkI (Fin 1) (Fin 0) (Fin 2)) true; mkE "cost" i false; mkE "revenue" j false] "clicks").
Proof.
  cbv zeta. assert (F : fits [mkI (Fin 1) (Fin (-1)) (Fin 2); mkI (Fin 0) NInf (Fin 1)]).
  { intros k [<-|[<-|[]]]; split; intros x [D|[D _]]; cbn in *; try (now elim (D _ eq_refl)); injection D as <-; (split; [intros b Hb; try discriminate; injection Hb as <-; lra|intros N]); try (now elim (N _ eq_refl)).
    exists (mkI (Fin 1) (Fin (-1)) (Fin 2)), (-1). cbn. repeat split; auto; lra. }
  split; auto. split; [now apply c76_drawn_iff_every_side_fits|].
  set (p := mkE "Clicks" (mkI (Fin 1) (Fin 0) (Fin 2)) true). set (i := mkI (Fin 1) (Fin (-1)) (Fin 2)) in *. set (j := mkI (Fin 0) NInf (Fin 1)) in *.
  assert (NC : ~ same_name "cost" "clicks") by (unfold same_name; vm_compute; discriminate).
  assert (NR : ~ same_name "revenue" "clicks") by (unfold same_name; vm_compute; discriminate).
  assert (YP : same_name "Clicks" "clicks") by reflexivity.
  apply (c76_plot_effects_succeeds_iff _ _ [] [i; j]).
  - intros k. split; [intros []|]. intros (e & [<-|[<-|[<-|[]]]] & N & S & _); cbn in *; [now elim N|discriminate|discriminate].
  - intros k. split.
    + intros [<-|[<-|[]]]; [exists (mkE "cost" i false)|exists (mkE "revenue" j false)]; cbn [In e_metric e_significant e_interval]; auto 6.
    + intros (e & [<-|[<-|[<-|[]]]] & N & S & <-); cbn in *; [discriminate|auto|auto].
  - exists [], p, [mkE "cost" i false; mkE "revenue" j false]. split; auto. split; auto. split; [intros e [<-|[<-|[]]]; auto|].
    split; [|split; [intros k []|exact F]]. exists 1, 0, 2. cbn. split; [now left|]. repeat split; lra.
Qed.

Print Assumptions c76_drawn_iff_every_side_fits.
Print Assumptions c76_drawn_bars_are_finite.
Print Assumptions c76_finite_intervals_are_drawn_exactly.
Print Assumptions c76_single_interval.
Print Assumptions c76_failures_are_value_errors.
Print Assumptions c76_infinities_are_handled_refuted.
Print Assumptions c76_plot_effects_succeeds_iff.
Print Assumptions c76_unbounded_primary_metric_fails.
