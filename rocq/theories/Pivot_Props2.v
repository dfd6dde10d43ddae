(** Property C14, continued: the rows that are pivoted are read from the cells of the data. *)
From Coq Require Import ZArith Reals List String Bool Lia Sorting.Sorted.
Require Import Verif.Base Verif.Num Verif.Frame Verif.F64 Verif.ListLib Verif.Design_Model Verif.Periods_Model Verif.Rows_Model Verif.Pivot_Model.
Import ListNotations.
Open Scope string_scope.
Open Scope list_scope.
Open Scope Z_scope.

(** what a cell is as a metric, as a week and as an item; any other cell is missing *)
Inductive as_metric : cell -> num -> Prop :=
  | metric_integer z : as_metric (CZ z) (Fin (IZR z))
  | metric_number x : as_metric (CNum x) x
  | metric_missing : as_metric CNull NaN.
Inductive as_week : cell -> option Z -> Prop :=
  | week_integer z : as_week (CZ z) (Some z)
  | week_missing : as_week CNull None.

(** the columns needed exist, have n cells each and hold what they should *)
Definition column_of (f : frame) (c : string) (n : nat) (good : cell -> Prop) : Prop :=
  exists cells, get_col c f = Some cells /\ List.length cells = n /\ Forall good cells.
Definition cell_at (f : frame) (c : string) (i : nat) (x : cell) : Prop := exists cells, get_col c f = Some cells /\ nth_error cells i = Some x.

(** row i of the data is the row r *)
Definition row_at (f : frame) (metrics : list string) (item week : string) (treat : option string) (i : nat) (r : prow akey) : Prop :=
  cell_at f item i (CStr (fst (p_key r))) /\
  (exists x, cell_at f week i x /\ as_week x (p_week r)) /\
  Forall2 (fun m v => exists x, cell_at f m i x /\ as_metric x v) metrics (p_vals r) /\
  match treat with None => snd (p_key r) = [] | Some t => exists a, cell_at f t i (CZ a) /\ snd (p_key r) = [a] end.

Lemma cell_here f c n good i : column_of f c n good -> (i < n)%nat -> cell_at f c i (nth i (col_or_nil c f) CNull) /\ good (nth i (col_or_nil c f) CNull).
Proof.
  intros (cells & E & L & G) H. unfold cell_at, col_or_nil. rewrite E. split.
  - exists cells. split; auto. apply nth_error_nth'. lia.
  - rewrite Forall_forall in G. apply G, nth_In. lia.
Qed.
Lemma cell_unique f c i x y : cell_at f c i x -> cell_at f c i y -> x = y.
Proof. intros (a & E1 & N1) (b & E2 & N2). congruence. Qed.

(** Every row of the data whose item and arm are not missing is read, in order, cell by cell. *)
Theorem c14_rows_are_read_cell_by_cell :
  forall f metrics item week treat n,
    column_of f item n (fun x => x = CNull \/ exists s, x = CStr s) ->
    column_of f week n (fun x => exists w, as_week x w) ->
    (forall m, In m metrics -> column_of f m n (fun x => exists v, as_metric x v)) ->
    (forall t, treat = Some t -> column_of f t n (fun x => x = CNull \/ exists z, x = CZ z)) ->
    exists idx, StronglySorted lt idx /\
      (forall i, In i idx <-> (i < n)%nat /\ (exists s, cell_at f item i (CStr s)) /\
                              match treat with None => True | Some t => exists a, cell_at f t i (CZ a) end) /\
      Forall2 (row_at f metrics item week treat) idx (frame_rows f metrics item week treat).
Proof.
  intros f metrics item week treat n HI HW HM HT.
  assert (LW : List.length (col_or_nil week f) = n) by (destruct HW as (cells & E & L & _); unfold col_or_nil; now rewrite E).
  unfold frame_rows. rewrite LW.
  assert (ROW : forall i, (i < n)%nat ->
    (frame_row f metrics item week treat i = [] /\
     ~ ((exists s, cell_at f item i (CStr s)) /\ match treat with None => True | Some t => exists a, cell_at f t i (CZ a) end)) \/
    (exists r, frame_row f metrics item week treat i = [r] /\ row_at f metrics item week treat i r)).
  { intros i Hi. unfold frame_row.
    destruct (cell_here f item n _ i HI Hi) as [CI GI]. destruct (cell_here f week n _ i HW Hi) as [CW (w & GW)].
    assert (EW : as_week (nth i (col_or_nil week f) CNull) (z_of_cell (nth i (col_or_nil week f) CNull))) by (inversion GW; constructor).
    assert (EM : Forall2 (fun m v => exists x, cell_at f m i x /\ as_metric x v) metrics
                   (map (fun m => num_of_cell (nth i (col_or_nil m f) CNull)) metrics)).
    { clear - HM Hi. induction metrics as [|m ms IH]; constructor; [|apply IH; intros; apply HM; now right].
      destruct (cell_here f m n _ i (HM m (or_introl eq_refl)) Hi) as [CM (v & GM)]. eexists. split; [exact CM|]. inversion GM; constructor. }
    assert (K : forall arm : list Z, (match str_of_cell (nth i (col_or_nil item f) CNull) with
       | None => []
       | Some it => [mkP (it, arm) (z_of_cell (nth i (col_or_nil week f) CNull)) (map (fun m => num_of_cell (nth i (col_or_nil m f) CNull)) metrics)]
       end = [] /\ ~ (exists s, cell_at f item i (CStr s))) \/
       (exists it, cell_at f item i (CStr it) /\ match str_of_cell (nth i (col_or_nil item f) CNull) with
       | None => []
       | Some it => [mkP (it, arm) (z_of_cell (nth i (col_or_nil week f) CNull)) (map (fun m => num_of_cell (nth i (col_or_nil m f) CNull)) metrics)]
       end = [mkP (it, arm) (z_of_cell (nth i (col_or_nil week f) CNull)) (map (fun m => num_of_cell (nth i (col_or_nil m f) CNull)) metrics)])).
    { intros arm. destruct GI as [GI|(s & GI)]; rewrite GI in CI |- *; cbn [str_of_cell].
      - left. split; auto. intros (s & C). now assert (X := cell_unique _ _ _ _ _ CI C).
      - right. exists s. auto. }
    destruct treat as [t|].
    - destruct (cell_here f t n _ i (HT t eq_refl) Hi) as [CT [GT|(a & GT)]]; rewrite GT in CT |- *; cbn [z_of_cell].
      + left. split; auto. intros (_ & a & C). now assert (X := cell_unique _ _ _ _ _ CT C).
      + destruct (K [a]) as [[-> N]|(it & CIT & ->)]; [left; split; auto; tauto|].
        right. eexists. split; [reflexivity|]. split; [exact CIT|]. split; [eexists; eauto|]. split; [exact EM|]. exists a. auto.
    - destruct (K []) as [[-> N]|(it & CIT & ->)]; [left; split; auto; tauto|].
      right. eexists. split; [reflexivity|]. split; [exact CIT|]. split; [eexists; eauto|]. split; [exact EM|reflexivity]. }
  clear HI HW HM HT LW.
  assert (G : forall k start, (start + k = n)%nat -> exists idx, StronglySorted lt idx /\
      (forall i, In i idx <-> (start <= i < n)%nat /\ (exists s, cell_at f item i (CStr s)) /\
                              match treat with None => True | Some t => exists a, cell_at f t i (CZ a) end) /\
      Forall2 (row_at f metrics item week treat) idx (flat_map (frame_row f metrics item week treat) (seq start k))).
  { induction k as [|k IH]; intros start E.
    { exists []. split; [constructor|]. split; [intros i; split; [intros []|lia]|constructor]. }
    cbn [seq flat_map]. destruct (IH (S start)) as (idx & SS & MEM & ALL); [lia|].
    destruct (ROW start) as [[-> N]|(r & -> & R)]; [lia| |].
    - exists idx. split; auto. split; [|exact ALL]. intros i. rewrite MEM. split; [intros (A & B); split; auto; lia|].
      intros (A & B). split; auto. destruct (Nat.eq_dec i start) as [->|]; [contradiction|lia].
    - exists (start :: idx). split; [constructor; auto; apply Forall_forall; intros i Hi; apply MEM in Hi; lia|]. split; [|constructor; auto].
      intros i. cbn [In]. rewrite MEM. split.
      + intros [<-|(A & B)]; [|split; auto; lia]. split; [lia|]. destruct R as (R1 & _ & _ & R4). split; [eauto|].
        destruct treat; [destruct R4 as (a & R4 & _); eauto|exact I].
      + intros (A & B). destruct (Nat.eq_dec i start) as [->|]; [now left|right]. split; auto. lia. }
  destruct (G n 0%nat eq_refl) as (idx & SS & MEM & ALL). exists idx. split; auto. split; [|exact ALL].
  intros i. rewrite MEM. split; intros (A & B); (split; [lia|exact B]).
Qed.

(** three rows, the second without an item *)
Definition mixed_frame : frame :=
  [("item", [CStr "a"; CNull; CStr "b"]); ("week", [CZ 0; CZ 0; CNull]); ("clicks", [CZ 3; CZ 4; CNull])].
Example c14_cells_example :
  column_of mixed_frame "item" 3 (fun x => x = CNull \/ exists s, x = CStr s) /\
  column_of mixed_frame "week" 3 (fun x => exists w, as_week x w) /\
  column_of mixed_frame "clicks" 3 (fun x => exists v, as_metric x v) /\
  frame_rows mixed_frame ["clicks"] "item" "week" None = [mkP ("a", []) (Some 0) [Fin 3]; mkP ("b", []) None [NaN]].
Proof.
  split; [|split; [|split; [|reflexivity]]]; eexists; (split; [reflexivity|split; [reflexivity|]]); 
  repeat (apply Forall_cons || apply Forall_nil); try (right; eexists; reflexivity); try (left; reflexivity); eexists; constructor.
Qed.

Print Assumptions c14_rows_are_read_cell_by_cell.
