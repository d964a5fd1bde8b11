(** Specification vocabulary: vectors of length n, orthonormality, span, independence, linear maps. *)
From Coq Require Import Reals Arith.
From Verif Require Import RSum.
Open Scope R_scope.

Definition inner (n : nat) (u v : nat -> R) : R := sumn n (fun k => u k * v k).
Definition length_of (n : nat) (v : nat -> R) : R := sqrt (inner n v v).
Definition orthogonal_set (n m : nat) (U : nat -> nat -> R) : Prop := forall i j, (i < m)%nat -> (j < m)%nat -> i <> j -> inner n (U i) (U j) = 0.
Definition orthonormal (n m : nat) (U : nat -> nat -> R) : Prop :=
  forall i j, (i < m)%nat -> (j < m)%nat -> inner n (U i) (U j) = if i =? j then 1 else 0.
(** sum_p c p * U p, component k *)
Definition combination (m : nat) (U : nat -> nat -> R) (c : nat -> R) (k : nat) : R := sumn m (fun p => c p * U p k).
Definition in_span (n m : nat) (U : nat -> nat -> R) (v : nat -> R) : Prop := exists c, forall k, (k < n)%nat -> v k = combination m U c k.
Definition independent (n m : nat) (U : nat -> nat -> R) : Prop :=
  forall c, (forall k, (k < n)%nat -> combination m U c k = 0) -> forall p, (p < m)%nat -> c p = 0.
Definition linear (n : nat) (H : (nat -> R) -> nat -> R) : Prop :=
  (forall u v, (forall k, (k < n)%nat -> u k = v k) -> forall k, (k < n)%nat -> H u k = H v k) /\
  (forall c u v k, (k < n)%nat -> H (fun i => c * u i + v i) k = c * H u k + H v k).
