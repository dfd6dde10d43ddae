(** Column-oriented data frames: an ordered list of named columns.  Used where the code
    reads, adds, renames or drops columns; row-wise functions use row records. *)
From Coq Require Import ZArith List String Bool.
Require Import Verif.Base Verif.Num.
Import ListNotations.

Inductive cell := CNull | CZ (z : Z) | CStr (s : string) | CNum (x : num).

Definition frame := list (string * list cell).

(** data.columns *)
Definition columns (f : frame) : list string := map fst f.

(** name in data.columns *)
Definition has_col (c : string) (f : frame) : bool := existsb (String.eqb c) (columns f).

(** data[name] *)
Fixpoint get_col (c : string) (f : frame) : option (list cell) :=
  match f with
  | [] => None
  | (c', v) :: r => if String.eqb c c' then Some v else get_col c r
  end.

(** data[name] = values: overwrite in place or append at the end *)
Fixpoint set_col (c : string) (v : list cell) (f : frame) : frame :=
  match f with
  | [] => [(c, v)]
  | (c', v') :: r => if String.eqb c c' then (c, v) :: r else (c', v') :: set_col c v r
  end.

(** data.drop(columns=[name], inplace=True) for an existing column *)
Definition drop_col (c : string) (f : frame) : frame :=
  filter (fun cv => negb (String.eqb c (fst cv))) f.

Lemma has_col_get c f : has_col c f = true <-> exists v, get_col c f = Some v.
Proof.
  induction f as [|[c' v] f IH]; simpl.
  - split; [discriminate | intros [? ?]; discriminate].
  - unfold has_col in *. simpl. destruct (String.eqb c c') eqn:E; simpl.
    + split; eauto.
    + exact IH.
Qed.

Lemma has_col_none c f : has_col c f = false <-> get_col c f = None.
Proof.
  destruct (has_col c f) eqn:E.
  - apply has_col_get in E as [v ->]. split; discriminate.
  - destruct (get_col c f) eqn:G; [|tauto].
    assert (has_col c f = true) by (apply has_col_get; eauto). congruence.
Qed.

Lemma set_col_fresh c v f : has_col c f = false -> set_col c v f = f ++ [(c, v)].
Proof.
  induction f as [|[c' v'] f IH]; simpl; auto.
  unfold has_col; simpl. destruct (String.eqb c c') eqn:E; simpl; [discriminate|].
  intros H. f_equal. now apply IH.
Qed.

Lemma get_set_same c v f : get_col c (set_col c v f) = Some v.
Proof.
  induction f as [|[c' v'] f IH]; simpl.
  - now rewrite String.eqb_refl.
  - destruct (String.eqb c c') eqn:E; simpl; [now rewrite String.eqb_refl|]. now rewrite E.
Qed.

Lemma get_set_other c d v f : c <> d -> get_col d (set_col c v f) = get_col d f.
Proof.
  intros H. induction f as [|[c' v'] f IH]; simpl.
  - destruct (String.eqb_spec d c); congruence.
  - destruct (String.eqb_spec c c'); subst; simpl.
    + destruct (String.eqb_spec d c'); congruence.
    + destruct (String.eqb d c'); auto.
Qed.

Lemma drop_fresh_app c v f : has_col c f = false -> drop_col c (f ++ [(c, v)]) = f.
Proof.
  unfold drop_col. intros H. rewrite filter_app. simpl. rewrite String.eqb_refl. simpl.
  rewrite app_nil_r. induction f as [|[c' v'] f IH]; simpl; auto.
  unfold has_col in H; simpl in H. apply orb_false_iff in H as [H1 H2]. rewrite H1. simpl.
  f_equal. now apply IH.
Qed.

Lemma columns_set_has c v f : has_col c (set_col c v f) = true.
Proof. apply has_col_get. eexists. apply get_set_same. Qed.
