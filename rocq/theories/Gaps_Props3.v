(** Claims that the seeded errors showed to be missing, third part. *)
From Coq Require Import ZArith Reals Lra Lia List String Bool.
Require Import Verif.Base Verif.Num Verif.ListLib Verif.Cupedplot_Model Verif.Curves_Model Verif.Overtime_Model Verif.History_Model.
Import ListNotations.
Open Scope string_scope.
Open Scope list_scope.

(** *** C82 *)
Lemma filter_without {A} (f : A -> bool) a r b : f r = false -> filter f (a ++ r :: b) = filter f (a ++ b).
Proof. intros H. rewrite !filter_app. cbn [filter]. now rewrite H. Qed.

Lemma known_without {A} (l k : list (option A)) : known (l ++ None :: k) = known (l ++ k).
Proof. unfold known. rewrite !flat_map_app. reflexivity. Qed.

(** A row without an item does not count for any item, and one without a week not for any week. *)
Theorem c82_rows_without_key_are_left_out : forall a r b,
  (h_item r = None -> snd (plot_metric_history (a ++ r :: b)) = snd (plot_metric_history (a ++ b)) /\
     snd (fst (plot_metric_history (a ++ r :: b))) = snd (fst (plot_metric_history (a ++ b)))) /\
  (h_week r = None -> fst (fst (plot_metric_history (a ++ r :: b))) = fst (fst (plot_metric_history (a ++ b)))).
Proof.
  intros a r b. split.
  - intros H. assert (E : metric_per_item (a ++ r :: b) = metric_per_item (a ++ b)).
    { unfold metric_per_item, items_of. replace (known (map h_item (a ++ r :: b))) with (known (map h_item (a ++ b))).
      - apply map_ext. intros i. rewrite filter_without; [reflexivity|]. unfold of_item. now rewrite H.
      - rewrite !map_app. cbn [map]. rewrite H. symmetry. apply known_without. }
    unfold plot_metric_history. cbn [fst snd]. now rewrite E.
  - intros H. cbn [plot_metric_history fst]. unfold weekly_totals. replace (known (map h_week (a ++ r :: b))) with (known (map h_week (a ++ b))).
    + apply map_ext. intros w. rewrite filter_without; [reflexivity|]. unfold of_week. now rewrite H.
    + rewrite !map_app. cbn [map]. rewrite H. symmetry. apply known_without.
Qed.
(** the row of no item would have changed the averages of both items *)
Definition keyless_rows : list hrow := [mkHR (Some "a") (Some 1%Z) (Fin 2); mkHR None None (Fin 7); mkHR (Some "b") (Some 1%Z) (Fin 4)].
Example c82_example_keys :
  plot_metric_history keyless_rows = plot_metric_history [mkHR (Some "a") (Some 1%Z) (Fin 2); mkHR (Some "b") (Some 1%Z) (Fin 4)] /\
  items_of keyless_rows = ["a"; "b"] /\ filter (of_item "a") keyless_rows = [mkHR (Some "a") (Some 1%Z) (Fin 2)].
Proof.
  split; [|split; reflexivity].
  destruct (c82_rows_without_key_are_left_out [mkHR (Some "a") (Some 1%Z) (Fin 2)] (mkHR None None (Fin 7)) [mkHR (Some "b") (Some 1%Z) (Fin 4)]) as [H1 H2].
  destruct (H1 eq_refl) as [A B]. specialize (H2 eq_refl). cbn [app] in *. fold keyless_rows in *.
  destruct (plot_metric_history keyless_rows) as [[u v] w]. destruct (plot_metric_history _) as [[u' v'] w']. cbn [fst snd] in *. congruence.
Qed.
Print Assumptions c82_rows_without_key_are_left_out.
