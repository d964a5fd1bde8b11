(** Specification vocabulary for C01-C03; independent of SystemModel. *)
From Coq Require Import ZArith NArith List.
Import ListNotations.
Open Scope Z_scope.

(** Physically meaningful constructor arguments: non-negative counts, positive multiplicity,
    enough electrons for the unpaired spins, enough orbitals for the alpha electrons. *)
Definition valid_input (nelec norb mult nfrozen ndelete : Z) : Prop :=
  0 <= nfrozen /\ 0 <= ndelete /\ 1 <= mult /\
  mult - 1 <= nelec - 2 * nfrozen /\
  nelec - 2 * nfrozen + (mult - 1) <= 2 * (norb - nfrozen - ndelete).

(** Irrep product of a list of orbitals. *)
Fixpoint irrep_product (l : list N) : N :=
  match l with
  | [] => 0%N
  | x :: r => N.lxor x (irrep_product r)
  end.

(** Elements lo, lo+1, ..., lo+len-1 of a list. *)
Definition segment {A} (lo len : nat) (l : list A) : list A := firstn len (skipn lo l).
