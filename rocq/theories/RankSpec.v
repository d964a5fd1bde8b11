(** Specification vocabulary: the determinants of an equation-of-motion method counted by electrons. *)
From Coq Require Import Arith NArith List.
From Verif Require Import TensorObjs FockSpec.
Import ListNotations.

(** Electrons in the first n orbitals of a given spin *)
Definition electrons (so : nat -> nat) (n : nat) (D : N) : nat := length (filter (fun p => N.testbit D (N.of_nat (so p))) (seq 0 n)).
(** How many of the first n orbitals of a given spin are empty *)
Definition empties (so : nat -> nat) (n : nat) (D : N) : nat := length (filter (fun p => negb (N.testbit D (N.of_nat (so p)))) (seq 0 n)).
(** No electron outside the first n spatial orbitals *)
Definition confined (n : nat) (D : N) : Prop := forall q : nat, N.testbit D (N.of_nat q) = true -> q < 2 * n.
(** Determinants over n orbitals with (ma - pa) alpha and (mb - pb) beta electrons less than the reference, in which at most L of the spin-orbitals
    occupied in the reference are empty *)
Definition sector (d : dims) (n ma pa mb pb L : nat) (D : N) : Prop :=
  confined n D /\ electrons al n D + ma = noa d + pa /\ electrons be n D + mb = nob d + pb /\ empties al (noa d) D + empties be (nob d) D <= L.
