(** Laws of the extended numbers used for the t-tests: sign changes and positive scaling. *)
From Coq Require Import Reals Lra List Bool.
From Flocq Require Import Core.
Require Import Verif.Num.
Import ListNotations.
Open Scope R_scope.

Lemma ninf_of_pos s : 0 < s -> ninf_of s = PInf.
Proof. intros. unfold ninf_of. now rewrite Rlt_bool_true. Qed.
Lemma ninf_of_neg s : s < 0 -> ninf_of s = NInf.
Proof. intros. unfold ninf_of. rewrite Rlt_bool_false, Rlt_bool_true by lra. reflexivity. Qed.
Lemma ninf_of_0 : ninf_of 0 = NaN.
Proof. unfold ninf_of. now rewrite !Rlt_bool_false by lra. Qed.

Lemma ninf_of_scale c s : 0 < c -> ninf_of (c * s) = ninf_of s.
Proof.
  intros H. destruct (Rtotal_order s 0) as [K|[K|K]].
  - rewrite !ninf_of_neg; auto. nra.
  - subst. now rewrite Rmult_0_r.
  - rewrite !ninf_of_pos; auto. nra.
Qed.
Lemma ninf_of_opp s : ninf_of (- s) = nneg (ninf_of s).
Proof.
  destruct (Rtotal_order s 0) as [K|[K|K]].
  - rewrite (ninf_of_neg s), (ninf_of_pos (- s)) by lra. reflexivity.
  - subst. now rewrite Ropp_0, ninf_of_0.
  - rewrite (ninf_of_pos s), (ninf_of_neg (- s)) by lra. reflexivity.
Qed.

Lemma nneg_nneg x : nneg (nneg x) = x.
Proof. destruct x; simpl; auto. f_equal. ring. Qed.
Lemma nsub_swap x y : nneg (nsub x y) = nsub y x.
Proof. destruct x, y; simpl; auto. f_equal. ring. Qed.
Lemma nneg_nadd x y : nneg (nadd x y) = nadd (nneg x) (nneg y).
Proof. destruct x, y; simpl; auto. f_equal. ring. Qed.
Lemma nmul_comm x y : nmul x y = nmul y x.
Proof. destruct x, y; simpl; auto. f_equal. ring. Qed.
Lemma nmul_neg_l x y : nmul (nneg x) y = nneg (nmul x y).
Proof.
  destruct x, y; simpl; rewrite ?Ropp_involutive; auto.
  - f_equal. ring.
  - apply ninf_of_opp.
  - now rewrite ninf_of_opp, nneg_nneg.
  - now rewrite ninf_of_opp.
  - now rewrite ninf_of_opp, nneg_nneg.
Qed.
Lemma nmul_neg1 x : nmul (Fin (-1)) x = nneg x.
Proof.
  destruct x; simpl; auto.
  - f_equal. ring.
  - apply ninf_of_neg. lra.
  - apply ninf_of_pos. lra.
Qed.
Lemma ndiv_neg_l x y : ndiv (nneg x) y = nneg (ndiv x y).
Proof.
  destruct x, y; simpl; auto.
  - destruct (Req_bool r0 0); [apply ninf_of_opp|]. simpl. f_equal. unfold Rdiv. ring.
  - f_equal. ring.
  - f_equal. ring.
  - destruct (Rlt_bool r 0); auto.
  - destruct (Rlt_bool r 0); auto.
Qed.
Lemma nabs_neg x : nabs (nneg x) = nabs x.
Proof. destruct x; simpl; auto. now rewrite Rabs_Ropp. Qed.
Lemma nsub_nneg_r x y : nsub x (nneg y) = nadd x y.
Proof. unfold nsub. now rewrite nneg_nneg. Qed.

(** scaling by a positive number *)
Definition nscale (c : R) (x : num) : num := nmul (Fin c) x.

Section Scale.
Context (c : R) (Hc : 0 < c).

Lemma nscale_fin x : nscale c (Fin x) = Fin (c * x).
Proof. reflexivity. Qed.
Lemma nscale_inf : nscale c PInf = PInf /\ nscale c NInf = NInf.
Proof. unfold nscale. simpl. rewrite ninf_of_pos, ninf_of_neg; auto. lra. Qed.
Lemma nscale_nan : nscale c NaN = NaN.
Proof. reflexivity. Qed.
Ltac scales := rewrite ?nscale_fin, ?(proj1 nscale_inf), ?(proj2 nscale_inf), ?nscale_nan.

Lemma nscale_nneg x : nscale c (nneg x) = nneg (nscale c x).
Proof. destruct x; simpl nneg; scales; simpl; auto. f_equal. ring. Qed.
Lemma nscale_nadd x y : nscale c (nadd x y) = nadd (nscale c x) (nscale c y).
Proof. destruct x, y; simpl nadd; scales; simpl; auto. f_equal. ring. Qed.
Lemma nscale_nsub x y : nscale c (nsub x y) = nsub (nscale c x) (nscale c y).
Proof. unfold nsub. now rewrite nscale_nadd, nscale_nneg. Qed.
Lemma ninf_nscale s : nscale c (ninf_of s) = ninf_of s.
Proof. unfold ninf_of. destruct (Rlt_bool 0 s); [|destruct (Rlt_bool s 0)]; scales; auto. Qed.
Lemma nscale_nmul_l x y : nscale c (nmul x y) = nmul (nscale c x) y.
Proof.
  destruct x, y; simpl nmul at 1; scales; simpl; auto; rewrite ?ninf_nscale; auto.
  - f_equal. ring.
  - now rewrite ninf_of_scale.
  - replace (- (c * r)) with (c * - r) by ring. now rewrite ninf_of_scale.
Qed.
Lemma nscale_nmul_r x y : nscale c (nmul x y) = nmul x (nscale c y).
Proof. rewrite nmul_comm, nscale_nmul_l. apply nmul_comm. Qed.
Lemma nscale_ndiv_l x y : nscale c (ndiv x y) = ndiv (nscale c x) y.
Proof.
  destruct x, y; simpl ndiv at 1; scales; simpl; auto; rewrite ?Rmult_0_r; auto.
  - destruct (Req_bool r0 0); scales; [rewrite ninf_nscale; symmetry; now apply ninf_of_scale|]. f_equal. unfold Rdiv. ring.
  - destruct (Rlt_bool r 0); scales; auto.
  - destruct (Rlt_bool r 0); scales; auto.
Qed.
Lemma Rlt_bool_scale a b : Rlt_bool (c * a) (c * b) = Rlt_bool a b.
Proof. case (Rlt_bool_spec a b); intros; [apply Rlt_bool_true|apply Rlt_bool_false]; nra. Qed.
Lemma Rle_bool_scale a b : Rle_bool (c * a) (c * b) = Rle_bool a b.
Proof. case (Rle_bool_spec a b); intros; [apply Rle_bool_true|apply Rle_bool_false]; nra. Qed.
Lemma ndiv_nscale x y : ndiv (nscale c x) (nscale c y) = ndiv x y.
Proof.
  destruct x, y; scales; simpl; auto.
  - case (Req_bool_spec r0 0); intros K.
    + subst. rewrite Req_bool_true by ring. now apply ninf_of_scale.
    + rewrite Req_bool_false by (apply Rmult_integral_contrapositive_currified; lra). f_equal. field. lra.
  - now rewrite <- (Rlt_bool_scale r 0), Rmult_0_r.
  - now rewrite <- (Rlt_bool_scale r 0), Rmult_0_r.
Qed.
Lemma nabs_nscale x : nabs (nscale c x) = nscale c (nabs x).
Proof. destruct x; scales; simpl; scales; auto. rewrite Rabs_mult, (Rabs_pos_eq c) by lra. reflexivity. Qed.
Lemma nltb_nscale x y : nltb (nscale c x) (nscale c y) = nltb x y.
Proof. destruct x, y; scales; simpl; auto. apply Rlt_bool_scale. Qed.
Lemma nleb_nscale x y : nleb (nscale c x) (nscale c y) = nleb x y.
Proof. destruct x, y; scales; simpl; auto. apply Rle_bool_scale. Qed.
Lemma neqb_nscale x y : neqb (nscale c x) (nscale c y) = neqb x y.
Proof.
  destruct x, y; scales; simpl; auto. case (Req_bool_spec r r0); intros K; [subst; now apply Req_bool_true|].
  apply Req_bool_false. intros E. apply K. nra.
Qed.
Lemma nscale_0 : nscale c (Fin 0) = Fin 0.
Proof. scales. f_equal. ring. Qed.
Lemma nsqrt_nscale x : nsqrt (nscale (c * c) x) = nscale c (nsqrt x).
Proof.
  assert (H2 : 0 < c * c) by nra.
  destruct x; unfold nscale at 1; simpl nmul.
  - simpl. case (Rlt_bool_spec r 0); intros K.
    + rewrite Rlt_bool_true by nra. reflexivity.
    + rewrite Rlt_bool_false by nra. scales. f_equal. rewrite sqrt_mult by nra. rewrite sqrt_square by lra. ring.
  - rewrite ninf_of_pos by auto. simpl. now scales.
  - rewrite ninf_of_neg by lra. simpl. now scales.
  - now scales.
Qed.
End Scale.

Lemma nscale_twice c d x : 0 < c -> 0 < d -> nscale c (nscale d x) = nscale (c * d) x.
Proof.
  intros Hc Hd. assert (0 < c * d) by nra.
  destruct x; unfold nscale; simpl; auto.
  - f_equal. ring.
  - rewrite !(ninf_of_pos d), (ninf_of_pos (c * d)) by auto. simpl. now apply ninf_of_pos.
  - rewrite !(ninf_of_neg (- d)), (ninf_of_neg (- (c * d))) by lra. simpl. apply ninf_of_neg. lra.
Qed.
Lemma nscale_sq c x : 0 < c -> nmul (nscale c x) (nscale c x) = nscale (c * c) (nmul x x).
Proof. intros H. rewrite <- nscale_twice by auto. rewrite (nscale_nmul_l c H x x). now rewrite nscale_nmul_r. Qed.
Lemma nscale_prod c x y : 0 < c -> nmul (nscale c x) (nscale c y) = nscale (c * c) (nmul x y).
Proof. intros H. rewrite <- nscale_twice by auto. rewrite (nscale_nmul_l c H x y). now rewrite nscale_nmul_r. Qed.

(** a non-finite number stays non-finite *)
Definition notfin (x : num) : Prop := forall r, x <> Fin r.
Lemma notfin_ninf s : notfin (ninf_of s).
Proof. intros r. unfold ninf_of. destruct (Rlt_bool 0 s); [|destruct (Rlt_bool s 0)]; discriminate. Qed.
Lemma notfin_nneg x : notfin x -> notfin (nneg x).
Proof. intros H r. destruct x; simpl; try discriminate. exfalso. now apply (H r0). Qed.
Lemma notfin_nadd_l x y : notfin x -> notfin (nadd x y).
Proof. intros H r. destruct x, y; simpl; try discriminate; exfalso; now apply (H r0). Qed.
Lemma notfin_nadd_r x y : notfin y -> notfin (nadd x y).
Proof. intros H. rewrite nadd_comm. now apply notfin_nadd_l. Qed.
Lemma notfin_nsub_l x y : notfin x -> notfin (nsub x y).
Proof. apply notfin_nadd_l. Qed.
Lemma notfin_nmul_l x y : notfin x -> notfin (nmul x y).
Proof. intros H. destruct x; [exfalso; now apply (H r)| | |]; destruct y; simpl; try apply notfin_ninf; discriminate. Qed.
Lemma notfin_nmul_r x y : notfin y -> notfin (nmul x y).
Proof. intros H. rewrite nmul_comm. now apply notfin_nmul_l. Qed.
Lemma notfin_ndiv_l x r : notfin x -> notfin (ndiv x (Fin r)).
Proof. intros H. destruct x; [exfalso; now apply (H r0)| | |]; simpl; try destruct (Rlt_bool r 0); discriminate. Qed.
Lemma notfin_nsqrt x : notfin x -> notfin (nsqrt x).
Proof. intros H. destruct x; [exfalso; now apply (H r)| | |]; discriminate. Qed.

Lemma nsqrt_is_fin x s : nsqrt x = Fin s -> exists v, x = Fin v /\ 0 <= v /\ s = sqrt v.
Proof.
  destruct x; simpl; try discriminate. case Rlt_bool_spec; [discriminate|]. intros H E.
  assert (s = sqrt r) by congruence. eauto.
Qed.
Lemma nadd_is_fin x y s : nadd x y = Fin s -> exists a b, x = Fin a /\ y = Fin b /\ s = a + b.
Proof. destruct x, y; simpl; try discriminate. intros E. exists r, r0. assert (s = r + r0) by congruence. auto. Qed.
Lemma ndiv_is_fin x r s : ndiv x (Fin r) = Fin s -> exists a, x = Fin a /\ r <> 0 /\ s = a / r.
Proof.
  destruct x; simpl; try discriminate.
  - case Req_bool_spec; intros K E; [exfalso; now apply (notfin_ninf r0 s)|].
    exists r0. assert (s = r0 / r) by congruence. auto.
  - destruct (Rlt_bool r 0); discriminate.
  - destruct (Rlt_bool r 0); discriminate.
Qed.
