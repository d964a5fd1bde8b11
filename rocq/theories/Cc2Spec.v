(** Specification vocabulary for CC2: the parts T1 and T2 of the cluster operator, the Fock operator of the reference determinant, the vector of the EOMCC2
    routine with the plain Fock matrix in the doubles block. *)
From Coq Require Import Reals Arith.
From Verif Require Import RSum IntegralsModel TensorObjs FockSpec FockCcSpec.
Open Scope R_scope.
Definition no_pairs : mat4 := fun _ _ _ _ => 0.
Definition no_triples : nat -> nat -> nat -> nat -> nat -> nat -> R := fun _ _ _ _ _ _ => 0.
(** T1 and T2 *)
Definition singles_of (T : amps) : amps := mkAmps (x_a T) (x_b T) no_pairs no_pairs no_pairs no_triples no_triples no_triples no_triples.
Definition doubles_of (T : amps) : amps := mkAmps (fun _ _ => 0) (fun _ _ => 0) (x_aa T) (x_ab T) (x_bb T) no_triples no_triples no_triples no_triples.
(** The Fock operator of the reference with na alpha and nb beta electrons: the one-body operator with matrices fock_a and fock_b *)
Definition fock_operator (na nb : nat) (I : integrals) : integrals :=
  mkIntegrals (fock_a na nb I) (fock_b na nb I) no_pairs no_pairs no_pairs.
(** The blocks B with the occupied-occupied and unoccupied-unoccupied one-body blocks of H *)
Definition plain_fock (H B : ints) : ints := mkInts (i_a_oo H) (i_a_ov B) (i_a_vo B) (i_a_vv H) (i_b_oo H) (i_b_ov B) (i_b_vo B) (i_b_vv H)
  (i_aa_oooo B) (i_aa_ooov B) (i_aa_oovo B) (i_aa_oovv B) (i_aa_ovoo B) (i_aa_ovov B) (i_aa_ovvo B) (i_aa_ovvv B)
  (i_aa_vooo B) (i_aa_voov B) (i_aa_vovo B) (i_aa_vovv B) (i_aa_vvoo B) (i_aa_vvov B) (i_aa_vvvo B) (i_aa_vvvv B)
  (i_ab_oooo B) (i_ab_ooov B) (i_ab_oovo B) (i_ab_oovv B) (i_ab_ovoo B) (i_ab_ovov B) (i_ab_ovvo B) (i_ab_ovvv B)
  (i_ab_vooo B) (i_ab_voov B) (i_ab_vovo B) (i_ab_vovv B) (i_ab_vvoo B) (i_ab_vvov B) (i_ab_vvvo B) (i_ab_vvvv B)
  (i_bb_oooo B) (i_bb_ooov B) (i_bb_oovo B) (i_bb_oovv B) (i_bb_ovoo B) (i_bb_ovov B) (i_bb_ovvo B) (i_bb_ovvv B)
  (i_bb_vooo B) (i_bb_voov B) (i_bb_vovo B) (i_bb_vovv B) (i_bb_vvoo B) (i_bb_vvov B) (i_bb_vvvo B) (i_bb_vvvv B).
(** X with the doubles of Y *)
Definition singles_doubles (X Y : amps) : amps := mkAmps (x_a X) (x_b X) (x_aa Y) (x_ab Y) (x_bb Y) (x_aaa X) (x_aab X) (x_abb X) (x_bbb X).
