(** Specification vocabulary for sorting. *)
From Coq Require Import List Arith Reals Permutation.
Import ListNotations.

(** [d] lists every position 1..n once. *)
Definition index_vector (n : nat) (d : list nat) : Prop := Permutation (seq 1 n) d.
(** Following [d], the values never decrease (never increase). *)
Definition ascending (r : list nat) (d : list nat) : Prop :=
  forall p q, p < q -> q < length d -> nth (nth p d 0 - 1) r 0 <= nth (nth q d 0 - 1) r 0.
Definition descending (r : list R) (d : list nat) : Prop :=
  forall p q, p < q -> q < length d -> (nth (nth q d 0%nat - 1) r 0 <= nth (nth p d 0%nat - 1) r 0)%R.
