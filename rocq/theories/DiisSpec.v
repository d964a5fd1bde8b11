(** Specification vocabulary for C25 (and the vector notions used elsewhere); independent of DiisModel. *)
From Coq Require Import Reals.
From Verif Require Import RSum.
Open Scope R_scope.

(** [x] solves the n x n system A x = b. *)
Definition solves (n : nat) (A : nat -> nat -> R) (b x : nat -> R) : Prop :=
  forall r, (r < n)%nat -> sumn n (fun c => A r c * x c) = b r.

(** sum_i c_i v_i, for m vectors. *)
Definition combination (m : nat) (c : nat -> R) (v : nat -> nat -> R) : nat -> R :=
  fun p => sumn m (fun i => c i * v i p).

(** Squared Euclidean norm. *)
Definition norm2 (n : nat) (v : nat -> R) : R := sumn n (fun p => v p * v p).

Definition coefficients_sum_to_one (m : nat) (c : nat -> R) : Prop := sumn m c = 1.

(** Linear independence of m vectors of length n. *)
Definition independent (m n : nat) (v : nat -> nat -> R) : Prop :=
  forall c, (forall p, (p < n)%nat -> combination m c v p = 0) -> forall i, (i < m)%nat -> c i = 0.

(** The leading k x k block of A is non-singular: only the zero vector is mapped to zero. *)
Definition nonsingular_block (k : nat) (A : nat -> nat -> R) : Prop :=
  forall y, (forall r, (r < k)%nat -> sumn k (fun c => A r c * y c) = 0) -> forall c, (c < k)%nat -> y c = 0.
