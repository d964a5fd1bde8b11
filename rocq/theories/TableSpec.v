(** Specification vocabulary for index tables. *)
From Coq Require Import List ZArith.
Import ListNotations.

(** [f] numbers the objects satisfying [P] with 1..K, each number once, and gives 0 to all others. *)
Definition numbering {T : Type} (P : T -> Prop) (f : T -> nat) (K : nat) : Prop :=
  (forall t, ~ P t -> f t = 0) /\
  (forall t, P t -> 1 <= f t <= K) /\
  (forall t u, P t -> P u -> f t = f u -> t = u) /\
  (forall k, 1 <= k <= K -> exists t, P t /\ f t = k).
Open Scope Z_scope.
(** Counts of pairs and triples of distinct objects, as the code computes them. *)
Definition pairs (n : Z) : Z := n * (n - 1) / 2.
Definition triples (n : Z) : Z := n * (n - 1) * (n - 2) / 6.
