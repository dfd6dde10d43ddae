(** Statements added after seeded errors went unnoticed: two columns read as item ids (C88). *)
From Coq Require Import ZArith Reals Lra Lia List String Ascii Bool.
Require Import Verif.Base Verif.Num Verif.Frame Verif.F64 Verif.ListLib Verif.Design_Model Verif.Standard_Model Verif.Checks_Model Verif.Pipeline_Model Verif.Entry_Model.
Require Verif.Entry_Props2 Verif.Checks_Props Verif.Entry_Props.
Import ListNotations.
Open Scope string_scope.
Open Scope list_scope.

(* ------------------------------------------------------------------ *)
(** *** C88: two columns read as item ids *)
(** a column of the assignment data that is (or becomes) the column item_id *)
Definition read_as_item (item arm c : string) : Prop := c <> arm /\ (c = item \/ c = "item_id").

Lemma two_kept (f : string -> string) (p : string -> bool) l a b : In a l -> In b l -> a <> b -> p (f a) = true -> p (f b) = true ->
  (2 <= List.length (filter p (map f l)))%nat.
Proof.
  assert (ONE : forall l x, In x l -> p (f x) = true -> (1 <= List.length (filter p (map f l)))%nat).
  { intros k x I P. assert (J : In (f x) (filter p (map f k))) by (apply filter_In; split; auto; now apply in_map).
    destruct (filter p (map f k)); [easy|cbn; lia]. }
  induction l as [|x l IH]; intros Ia Ib N Pa Pb; [easy|]. cbn [map filter].
  destruct Ia as [->|Ia], Ib as [->|Ib]; [congruence| | |].
  - rewrite Pa. cbn [List.length]. assert (X := ONE l b Ib Pb). lia.
  - rewrite Pb. cbn [List.length]. assert (X := ONE l a Ia Pa). lia.
  - assert (X := IH Ia Ib N Pa Pb). destruct (p (f x)); cbn [List.length]; lia.
Qed.

Theorem c88_a_second_item_column_is_rejected :
  forall std to_float to_int by_date binom outer perf asg d start item date arm inputs others neg alo concluded skip a b data,
    In a (columns asg) -> In b (columns asg) -> a <> b -> read_as_item item arm a -> read_as_item item arm b ->
    experiment_entry std to_float to_int by_date binom outer perf asg d start item date arm inputs others neg alo concluded skip <> Ok data.
Proof.
  intros std to_float to_int by_date binom outer perf asg d start item date arm inputs others neg alo concluded skip a b data Ia Ib N Ra Rb H.
  unfold experiment_entry in H. cbv zeta in H. apply bind_ok in H as (asd & H & _). unfold assignment_of in H. cbv zeta in H.
  apply bind_ok in H as (ids & H & _). unfold only_col in H. apply bind_ok in H as (u & H & _). apply raise_if_ok in H.
  apply negb_false_iff, Nat.eqb_eq in H. unfold occurrences, columns, rename_assignment in H. rewrite map_map in H.
  set (ren := fun c => if String.eqb c arm then "treatment_assignment" else if String.eqb c item then "item_id" else c).
  assert (E : map (fun x : string * list cell => fst (if String.eqb (fst x) arm then "treatment_assignment" else if String.eqb (fst x) item then "item_id" else fst x, snd x)) asg =
    map ren (map fst asg)) by (rewrite map_map; reflexivity).
  rewrite E in H.
  assert (K : forall c, read_as_item item arm c -> String.eqb "item_id" (ren c) = true).
  { intros c [C1 C2]. unfold ren. destruct (String.eqb_spec c arm); [easy|]. destruct (String.eqb_spec c item); [reflexivity|]. destruct C2 as [->| ->]; [easy|reflexivity]. }
  assert (X := two_kept ren (String.eqb "item_id") (map fst asg) a b Ia Ib N (K a Ra) (K b Rb)). lia.
Qed.

(** the complete call of C88 with one more column in the assignment data *)
Example c88_second_item_column_example : exists f,
  f = Entry_Props2.ex_assignment [CStr "new"; CStr "old"] ++ [("item_id", [CStr "1"; CStr "2"])] /\
  In "sku" (columns f) /\ In "item_id" (columns f) /\ read_as_item "sku" "arm" "sku" /\ read_as_item "sku" "arm" "item_id".
Proof. eexists. split; [reflexivity|]. cbn. repeat split; try discriminate; auto 10. Qed.

Print Assumptions c88_a_second_item_column_is_rejected.
