(** Specification vocabulary for trimming and assignment. *)
From Coq Require Import ZArith List Bool Permutation.
Require Import Verif.Num.
Import ListNotations.

(** some elements removed, the others in the same order *)
Inductive subseq {A} : list A -> list A -> Prop :=
| sub_nil : subseq [] []
| sub_skip a l m : subseq l m -> subseq l (a :: m)
| sub_keep a l m : subseq l m -> subseq (a :: l) (a :: m).

(** [out] is [rows] without [kt] rows of greatest and [kb] rows of least value *)
Definition extremes_removed {A} (value : A -> num) (kt kb : nat) (rows out : list A) : Prop :=
  subseq out rows /\
  exists highest lowest,
    Permutation rows (highest ++ out ++ lowest) /\
    length highest = kt /\ length lowest = kb /\
    (forall h k, In h highest -> In k (out ++ lowest) -> nleb (value k) (value h) = true) /\
    (forall l k, In l lowest -> In k (highest ++ out) -> nleb (value l) (value k) = true).

(** every result of shuffling is a permutation of the positions *)
Definition shuffles (shuffle : nat -> list nat) : Prop := forall n, Permutation (shuffle n) (seq 0 n).

(** the week is one of the last [k] weeks of the data ([weeks] are the week ids of its rows) *)
Definition recent (k : Z) (weeks : list Z) (w : Z) : Prop :=
  exists m, In m weeks /\ (forall x, In x weeks -> (x <= m)%Z) /\ (m - k < w)%Z.
