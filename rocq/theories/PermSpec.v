(** Specification vocabulary for permutations and determinants (C10-C12). *)
From Coq Require Import ZArith List Arith Permutation.
Import ListNotations.

(** Number of entries of [l] smaller than [x]. *)
Definition smaller (x : nat) (l : list nat) : nat := length (filter (fun y => y <? x) l).

(** Number of inversions: pairs of positions i < j with l[i] > l[j]. *)
Fixpoint inversions (l : list nat) : nat :=
  match l with
  | [] => 0
  | x :: r => smaller x r + inversions r
  end.

(** The sign of an arrangement: (-1)^inversions. *)
Definition sign (l : list nat) : Z := if Nat.even (inversions l) then 1%Z else (-1)%Z.

(** [l] is a permutation of 0..n-1. *)
Definition is_perm (l : list nat) : Prop := Permutation l (seq 0 (length l)).

(** Strictly increasing. *)
Fixpoint increasing (l : list nat) : Prop :=
  match l with
  | [] => True
  | x :: r => (forall y, In y r -> x < y) /\ increasing r
  end.
