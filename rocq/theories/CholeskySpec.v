(** Specification vocabulary for C29. *)
From Coq Require Import Reals.
From Verif Require Import RSum.
Open Scope R_scope.
Definition symmetric (N : nat) (A : nat -> nat -> R) : Prop := forall i j, (i < N)%nat -> (j < N)%nat -> A i j = A j i.
(** x^T A x >= 0 for every vector x *)
Definition positive_semidefinite (N : nat) (A : nat -> nat -> R) : Prop :=
  forall x : nat -> R, 0 <= sumn N (fun i => sumn N (fun j => x i * A i j * x j)).
(** Error of the approximation by the first m vectors L 0, ..., L (m-1): A - sum_k L_k L_k^T *)
Definition error (A : nat -> nat -> R) (L : nat -> nat -> R) (m i j : nat) : R := A i j - sumn m (fun k => L k i * L k j).
