(** Specification vocabulary: binomial numbers, combinations, lexicographic order. *)
From Coq Require Import List Arith Sorted.
Import ListNotations.

(** Pascal's triangle. *)
Fixpoint choose (n k : nat) : nat :=
  match k with
  | 0 => 1
  | S k' => match n with 0 => 0 | S n' => choose n' k' + choose n' k end
  end.
(** An r-subset of 1..n, as an increasing list. *)
Definition combination (n r : nat) (c : list nat) : Prop :=
  length c = r /\ StronglySorted lt c /\ forall x, In x c -> 1 <= x <= n.
Definition lex (c d : list nat) : Prop :=
  exists p, p < length c /\ p < length d /\ (forall q, q < p -> nth q c 0 = nth q d 0) /\ nth p c 0 < nth p d 0.
